(** C48, the text of an assigned file, said without the model's line splitting: what the lines of a draft are, and which
    of them change. *)
From Coq Require Import List NArith Ascii String Bool Arith.
From Verif Require Import Base StrLib PartsModel PartsSpec PropsParts DbModel AssignModel AssignSpec PropsLint LintProofs.
Import ListNotations.
Local Open Scope string_scope.
Local Infix "++" := String.append (right associativity, at level 60).

Definition LF : string := String (ascii_of_N 10) "".
Definition CR : string := String (ascii_of_N 13) "".
(** [x] occurs in no place of [s]. *)
Definition free_of (x s : string) : Prop := forall a b, s <> a ++ x ++ b.
(** The lines of a text: each ends with LF or CR LF, which are not part of it; what is left after the last LF, if
    anything, is a line as it stands (also if it ends with CR). *)
Inductive lines_in : string -> list string -> Prop :=
| li_none : lines_in "" []
| li_open l : l <> "" -> free_of LF l -> lines_in l [l]
| li_lf l rest ls : free_of LF l -> (forall a, l <> a ++ CR) -> lines_in rest ls -> lines_in (l ++ LF ++ rest) (l :: ls)
| li_crlf l rest ls : free_of LF l -> lines_in rest ls -> lines_in (l ++ CR ++ LF ++ rest) (l :: ls).
(** The line to be replaced, and what a line becomes. *)
Definition id_line (sid : string) : string := "id = ""RUSTSEC-" ++ sid ++ """".
Definition placeholder (l : string) : Prop := exists a b, blank a /\ blank b /\ l = a ++ id_line "0000-0000" ++ b.
Definition becomes (y_n l l' : string) : Prop := (placeholder l /\ l' = id_line y_n) \/ (~ placeholder l /\ l' = l).

Lemma free_has c s : free_of (String c "") s <-> has_char c s = false.
Proof.
  split.
  - intros F. destruct (has_char c s) eqn:E; [|reflexivity]. destruct (split_once c s) as [[a b]|] eqn:S.
    + apply split_once_spec in S as [S _]. exfalso. apply (F a b). exact S.
    + apply split_once_none in S. congruence.
  - intros H a b E. subst s. assert (X : has_char c (a ++ String c b) = true).
    { clear. induction a as [|x a IH]; cbn; [rewrite Ascii.eqb_refl; reflexivity|rewrite IH; apply orb_true_r]. }
    cbn [String.append] in H. congruence.
Qed.
Lemma strip_cr_no l : (forall a, l <> a ++ CR) -> strip_cr l = l.
Proof.
  intros H. unfold strip_cr. destruct (strip_suffix (String cr "") l) as [x|] eqn:E; [|reflexivity].
  apply strip_suffix_spec in E. exfalso. apply (H x). exact E.
Qed.
Lemma strip_cr_yes l : strip_cr (l ++ CR) = l.
Proof.
  unfold strip_cr. rewrite (proj2 (strip_suffix_spec (String cr "") (l ++ CR) l) eq_refl). reflexivity.
Qed.
Lemma lines_in_compute text ls : lines_in text ls -> file_lines text = ls.
Proof.
  induction 1 as [|l N F|l rest ls F C H IH|l rest ls F H IH].
  - reflexivity.
  - apply free_has in F. unfold file_lines. change nl with (ascii_of_N 10). rewrite (split_on_nochar _ _ F). cbn [lines_of].
    destruct (String.eqb_spec l ""); [contradiction|reflexivity].
  - apply free_has in F. change (LF ++ rest) with (String nl rest). rewrite file_lines_cons by exact F. rewrite IH, strip_cr_no by exact C. reflexivity.
  - apply free_has in F. change (l ++ CR ++ LF ++ rest) with (l ++ CR ++ String nl rest). rewrite <- sapp_assoc.
    rewrite file_lines_cons.
    + rewrite IH, strip_cr_yes. reflexivity.
    + apply free_has. intros a b E.
      assert (X : has_char nl (l ++ CR) = false).
      { clear - F. induction l as [|x l IH]; [reflexivity|]. cbn in F |- *. apply orb_false_iff in F as [F1 F2].
        change nl with (ascii_of_N 10). rewrite F1. apply IH. exact F2. }
      apply free_has in X. exact (X a b E).
Qed.
Lemma lines_exist text : lines_in text (file_lines text).
Proof.
  assert (P : forall x, In x (split_on nl text) -> has_char nl x = false) by apply split_on_parts.
  pose proof (split_on_nonempty nl text) as N. rewrite <- (join_split nl text) at 1. unfold file_lines.
  induction (split_on nl text) as [|x r IH]; [congruence|]. destruct r as [|y r].
  - cbn [join_on lines_of]. destruct (String.eqb_spec x "") as [->|Nx]; [constructor|]. constructor; [exact Nx|].
    apply free_has. apply P. left. reflexivity.
  - rewrite join_cons2. rewrite lines_cons by discriminate.
    assert (I : lines_in (join_on nl (y :: r)) (lines_of (y :: r))).
    { apply IH; [|discriminate]. intros z Z. apply P. right. exact Z. }
    assert (F : has_char nl x = false) by (apply P; left; reflexivity).
    unfold strip_cr. destruct (strip_suffix (String cr "") x) as [u|] eqn:E.
    + apply strip_suffix_spec in E. subst x. rewrite sapp_assoc. apply li_crlf; [|exact I].
      apply free_has. clear - F. induction u as [|a u IH]; [reflexivity|]. cbn in F |- *. apply orb_false_iff in F as [F1 F2].
      change (ascii_of_N 10) with nl. rewrite F1. apply IH. exact F2.
    + apply (li_lf x); [apply free_has; exact F| |exact I]. intros a Ea. subst x.
      rewrite (proj2 (strip_suffix_spec (String cr "") (a ++ CR) a) eq_refl) in E. discriminate.
Qed.
Lemma placeholder_iff l : is_placeholder_line l = true <-> placeholder l.
Proof.
  unfold is_placeholder_line. split.
  - intros H. apply String.eqb_eq in H. destruct (trim_both_spec l) as [(a & b & A & B & E) _]. exists a, b.
    split; [exact A|]. split; [exact B|]. rewrite E, H. reflexivity.
  - intros (a & b & A & B & ->). apply String.eqb_eq. apply trimmed_compute. split; [|split].
    + exists a, b. split; [exact A|]. split; [exact B|]. reflexivity.
    + rewrite <- ws_start_iff. cbn. discriminate.
    + intros (w & r & W & E). assert (R : srev PLACEHOLDER_LINE = srev w ++ srev r) by (rewrite E; apply srev_sapp).
      cbn in R. unfold white_space in W. cbn in W.
      repeat (destruct W as [<-|W]; [cbn in R; discriminate R|]). destruct W.
Qed.
(** Every text has its lines, in one way only; and the file of an assigned draft has exactly one line for each of them,
    every one ended by LF: the id line for a placeholder, up to white space around it, and the line unchanged otherwise. *)
Theorem C48_text_has_lines : forall text, exists ls, lines_in text ls /\ forall ls', lines_in text ls' -> ls' = ls.
Proof.
  intros text. exists (file_lines text). split; [apply lines_exist|]. intros ls' H. symmetry. apply lines_in_compute. exact H.
Qed.
Theorem C48_lines_filled_in : forall y_n text ls, lines_in text ls ->
  exists out, Forall2 (becomes y_n) ls out /\ with_id ("RUSTSEC-" ++ y_n) text = String.concat "" (map (fun l => l ++ LF) out).
Proof.
  intros y_n text ls H. apply lines_in_compute in H. unfold with_id. rewrite H. clear H.
  induction ls as [|l ls (out & F & E)].
  - exists []. split; [constructor|reflexivity].
  - exists ((if is_placeholder_line l then id_line y_n else l) :: out). split.
    + constructor; [|exact F]. unfold becomes. destruct (is_placeholder_line l) eqn:Pl.
      * left. split; [apply placeholder_iff; exact Pl|reflexivity].
      * right. split; [|reflexivity]. rewrite <- placeholder_iff. congruence.
    + cbn [fold_right map]. rewrite E.
      assert (C : forall a r, String.concat "" (a :: r) = a ++ String.concat "" r).
      { intros a r. destruct r; [cbn; rewrite sapp_nil_r; reflexivity|reflexivity]. }
      rewrite C. rewrite sapp_assoc. destruct (is_placeholder_line l); reflexivity.
Qed.
(** A draft written on Windows, with its last line left open. *)
Example windows_draft : lines_in ("x" ++ CR ++ LF ++ "  id = ""RUSTSEC-0000-0000""  " ++ CR ++ LF ++ "y")
    ["x"; "  id = ""RUSTSEC-0000-0000""  "; "y"] /\
  with_id "RUSTSEC-2024-0007" ("x" ++ CR ++ LF ++ "  id = ""RUSTSEC-0000-0000""  " ++ CR ++ LF ++ "y") =
    "x" ++ LF ++ "id = ""RUSTSEC-2024-0007""" ++ LF ++ "y" ++ LF.
Proof.
  split; [|vm_compute; reflexivity].
  change ["x"; "  id = ""RUSTSEC-0000-0000""  "; "y"] with (file_lines ("x" ++ CR ++ LF ++ "  id = ""RUSTSEC-0000-0000""  " ++ CR ++ LF ++ "y")).
  apply lines_exist.
Qed.
Print Assumptions C48_text_has_lines.
Print Assumptions C48_lines_filled_in.
