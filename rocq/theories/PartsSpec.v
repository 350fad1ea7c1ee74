(** What it means to split an advisory file, independently of how the code does it. *)
From Coq Require Import List NArith Ascii String Bool.
From Verif Require Import Base StrLib.
Import ListNotations.
Local Open Scope string_scope.
Local Infix "++" := String.append (right associativity, at level 60).

Definition bytes (l : list N) : string := fold_right (fun n s => String (ascii_of_N n) s) "" l.
(** The white space characters of Unicode (property White_Space), as UTF-8. *)
Definition white_space : list string :=
  map bytes
   [[9]; [10]; [11]; [12]; [13]; [32]; [194;133]; [194;160]; [225;154;128];
    [226;128;128]; [226;128;129]; [226;128;130]; [226;128;131]; [226;128;132]; [226;128;133];
    [226;128;134]; [226;128;135]; [226;128;136]; [226;128;137]; [226;128;138];
    [226;128;168]; [226;128;169]; [226;128;175]; [226;129;159]; [227;128;128]]%N.
(** Text of white space only. *)
Inductive blank : string -> Prop :=
| blank_nil : blank ""
| blank_cons w s : In w white_space -> blank s -> blank (w ++ s).
Definition starts_blank (s : string) : Prop := exists w r, In w white_space /\ s = w ++ r.
Definition ends_blank (s : string) : Prop := exists w r, In w white_space /\ s = r ++ w.
(** [t] is [s] without surrounding white space. *)
Definition trimmed (s t : string) : Prop :=
  (exists a b, blank a /\ blank b /\ s = a ++ t ++ b) /\ ~ starts_blank t /\ ~ ends_blank t.
(** [t] is [s] without white space at the end. *)
Definition trimmed_end (s t : string) : Prop := (exists b, blank b /\ s = t ++ b) /\ ~ ends_blank t.
(** [p] occurs in [s]. *)
Definition occurs (p s : string) : Prop := exists a b, s = a ++ p ++ b.
Definition newline : string := bytes [10%N].

(** A well-formed advisory file: [raw_front] between the fences, white space, a title line, the description. *)
Definition advisory_file (raw_front gap raw_title raw_desc : string) : string :=
  "```toml" ++ raw_front ++ newline ++ "```" ++ gap ++ "# " ++ raw_title ++ newline ++ raw_desc.
(** The closing fence is the first line break followed by three backquotes; the title is one line. *)
Definition file_parts (raw_front gap raw_title : string) : Prop :=
  ~ occurs (newline ++ "```") raw_front /\ blank gap /\ ~ occurs newline raw_title.
