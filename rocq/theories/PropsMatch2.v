(** Property C93, continued: requirements as they are written, affected functions, and what does not hold. *)
From Coq Require Import List NArith ZArith Ascii String Bool Arith Lia.
From Verif Require Import Base StrLib IdModel PkgModel LockModel DbModel SemverModel SemverFacts VerText ReqText ReqSpec PropsReq PropsReq2 PropsReq3 MatchSpec PropsMatch AuditModel ScanModel PropsScan.
Import ListNotations.
Local Open Scope string_scope.
Local Infix "++" := String.append (right associativity, at level 60).

(** What a sign before a version with three numbers says of a release. *)
Definition says (sign : string) (v w : version) : Prop :=
  match sign with
  | "=" => same v w
  | ">" => before v w
  | ">=" => from_on v w
  | "<" => before w v
  | "<=" => from_on w v
  | "~" => from_on v w /\ before w (release (major v) (minor v + 1) 0)
  | "^" | "" => from_on v w /\
      before w (if (major v =? 0)%N then if (minor v =? 0)%N then release 0 0 (patch v + 1) else release 0 (minor v + 1) 0 else release (major v + 1) 0 0)
  | _ => False
  end.
(** What a sign before two numbers says, and before one. *)
Definition says2 (sign : string) (i j : N) (w : version) : Prop :=
  match sign with
  | "=" | "~" => from_on (release i j 0) w /\ before w (release i (j + 1) 0)
  | ">" => from_on (release i (j + 1) 0) w
  | ">=" => from_on (release i j 0) w
  | "<" => before w (release i j 0)
  | "<=" => before w (release i (j + 1) 0)
  | "^" | "" => from_on (release i j 0) w /\ before w (if (i =? 0)%N then release 0 (j + 1) 0 else release (i + 1) 0 0)
  | _ => False
  end.
Definition says1 (sign : string) (i : N) (w : version) : Prop :=
  match sign with
  | "=" | "~" | "^" | "" => from_on (release i 0 0) w /\ before w (release (i + 1) 0 0)
  | ">" => from_on (release (i + 1) 0 0) w
  | ">=" => from_on (release i 0 0) w
  | "<" => before w (release i 0 0)
  | "<=" => before w (release (i + 1) 0 0)
  | _ => False
  end.
Definition signs : list string := ["="; ">"; ">="; "<"; "<="; "~"; "^"; ""].
Lemma one_comparator s c w : parse_req s = Some [c] -> pre w = [] -> forall P, (selects c w <-> P) -> exists r, parse_req s = Some r /\ (req_matches r w = true <-> P).
Proof.
  intros R W P H. exists [c]. split; [exact R|]. rewrite C93_releases; [|apply (C91_what_is_read _ _ R)|exact W]. rewrite <- H. split; [intros X; apply X; left; reflexivity|intros X c' [<-|[]]; exact X].
Qed.
Lemma one_text s c : comparator_text s c -> parse_req s = Some [c].
Proof.
  intros T. apply C91_accepted_texts. pose proof (these_versions "" (s ++ "") [c] no_blanks (last_comparator s c "" T no_blanks)) as R. rewrite sapp_nil_r in R.
  apply R. cbn. lia.
Qed.
Lemma signed_texts (sign s : string) n m p l w (Says : string -> Prop) : In sign signs -> open_version s n m p l false -> pre w = [] ->
  (forall o, In (sign, o) operators -> selects (mkComparator o n m p l) w <-> Says sign) -> (selects (mkComparator OpCaret n m p l) w <-> Says "") ->
  exists r, parse_req (sign ++ s) = Some r /\ (req_matches r w = true <-> Says sign).
Proof.
  intros I V P S B. assert (Sg : forall o, In (sign, o) operators -> exists r, parse_req (sign ++ s) = Some r /\ (req_matches r w = true <-> Says sign)).
  { intros o Io. apply (one_comparator _ (mkComparator o n m p l) w); [|exact P|apply S, Io]. apply one_text.
    exact (with_operator sign o "" s n m p l false Io no_blanks V). }
  unfold signs in I. cbn [In] in I. destruct I as [<-|[<-|[<-|[<-|[<-|[<-|[<-|[<-|[]]]]]]]]].
  - apply (Sg OpExact). cbn. tauto.
  - apply (Sg OpGreater). cbn. tauto.
  - apply (Sg OpGreaterEq). cbn. tauto.
  - apply (Sg OpLess). cbn. tauto.
  - apply (Sg OpLessEq). cbn. tauto.
  - apply (Sg OpTilde). cbn. tauto.
  - apply (Sg OpCaret). cbn. tauto.
  - apply (one_comparator _ (mkComparator OpCaret n m p l) w); [|exact P|exact B]. apply one_text, without_operator, V.
Qed.
Ltac by_sign := let o := fresh in let J := fresh in intros o J; cbn [operators In] in J; repeat destruct J as [J|J]; try contradiction; injection J as <- <-; exact (iff_refl _).
(** *** C93: the signs before a version, for releases. *)
Theorem C93_as_written : forall sign v w, In sign signs -> version_wf v = true -> pre w = [] ->
  exists r, parse_req (sign ++ print_version v) = Some r /\ (req_matches r w = true <-> says sign v w).
Proof.
  intros sign v w I V P.
  assert (O : open_version (print_version v) (major v) (Some (minor v)) (Some (patch v)) (pre v) false).
  { apply version_wf_iff in V as (W1 & W2 & W3 & W4 & W5). unfold print_version. apply full with (bl := SemverModel.build v); try (split; [reflexivity|assumption]).
    - pose proof (written_pre (pre v) W4) as T. destruct (pre v); exact T.
    - destruct (SemverModel.build v) as [|x l] eqn:E; [constructor|]. constructor. split; [discriminate|]. split; [|reflexivity]. apply forallb_forall. exact W5. }
  apply (signed_texts sign _ _ _ _ _ w (fun s => says s v w) I O P); [by_sign|exact (iff_refl _)].
Qed.
(** *** C93: with two numbers or one, and with wildcards. *)
Theorem C93_short_forms : forall sign i j w star, In sign signs -> (i <= u64_max)%N -> (j <= u64_max)%N -> pre w = [] -> In star ["*"; "x"; "X"] ->
  (exists r, parse_req (sign ++ print_dec i ++ "." ++ print_dec j) = Some r /\ (req_matches r w = true <-> says2 sign i j w)) /\
  (exists r, parse_req (sign ++ print_dec i) = Some r /\ (req_matches r w = true <-> says1 sign i w)) /\
  (exists r, parse_req (print_dec i ++ "." ++ print_dec j ++ "." ++ star) = Some r /\ (req_matches r w = true <-> says2 "=" i j w)) /\
  (exists r, parse_req (print_dec i ++ "." ++ star) = Some r /\ (req_matches r w = true <-> says1 "=" i w)) /\
  (exists r, parse_req star = Some r /\ req_matches r w = true).
Proof.
  intros sign i j w star I Bi Bj P St. assert (Ni : number i (print_dec i)) by (split; [reflexivity|exact Bi]). assert (Nj : number j (print_dec j)) by (split; [reflexivity|exact Bj]).
  split; [|split; [|split; [|split]]].
  - apply (signed_texts sign _ _ _ _ _ w (fun s => says2 s i j w) I (open_minor _ _ _ _ Ni Nj) P); [by_sign|exact (iff_refl _)].
  - apply (signed_texts sign _ _ _ _ _ w (fun s => says1 s i w) I (open_major _ _ Ni) P); [by_sign|exact (iff_refl _)].
  - apply (one_comparator _ (mkComparator OpWildcard i (Some j) None []) w); [apply one_text, with_wildcard; eapply open_minor_star; eassumption|exact P|exact (iff_refl _)].
  - apply (one_comparator _ (mkComparator OpWildcard i None None []) w); [apply one_text, with_wildcard; eapply open_star; eassumption|exact P|exact (iff_refl _)].
  - exists []. split; [|unfold req_matches; rewrite P; reflexivity].
    apply C91_accepted_texts. pose proof (any_version "" star "" no_blanks St no_blanks) as R. rewrite sapp_nil_r in R. exact R.
Qed.
Print Assumptions C93_as_written.
Print Assumptions C93_short_forms.

(** *** C93: the functions a vulnerability report names are those with a requirement that the version of the package meets. *)
Theorem C93_affected_functions : forall v af, a_affected (v_advisory v) = Some af -> version_wf (p_version (v_package v)) = true ->
  (forall p reqs r, In (p, reqs) (af_functions af) -> In r reqs -> req_wf r = true) ->
  match affected_functions v with
  | None => af_functions af = []
  | Some l => forall p, In p l <-> exists reqs r, In (p, reqs) (af_functions af) /\ In r reqs /\ meets r (p_version (v_package v))
  end.
Proof.
  intros v af A W R. pose proof (C53_affected_functions v) as C. destruct (affected_functions v) as [l|]; [|exact (C af A)].
  destruct C as (af' & A' & _ & C). assert (af' = af) by congruence. subst af'. intros p. rewrite C. split; intros (reqs & r & I & J & M); exists reqs, r; (split; [exact I|]; split; [exact J|]);
    apply (C93_meets r _ (R p reqs r I J) W); exact M.
Qed.
Print Assumptions C93_affected_functions.

(** ** Examples, and what does not hold *)
Definition req_of (s : string) : version_req := match parse_req s with Some r => r | None => [] end.
Definition v_of (s : string) : version := match parse_version s with Some v => v | None => release 0 0 0 end.
Definition chosen (s v : string) : bool := req_matches (req_of s) (v_of v).
Example C93_nonvacuous :
  req_wf (req_of ">=1.2.3-rc.1, <2") = true /\ version_wf (v_of "1.2.3-rc.2") = true /\ pre (v_of "1.2.3-rc.2") <> [] /\
  map (chosen ">=1.2.3-rc.1, <2") ["1.2.3-rc.0"; "1.2.3-rc.1"; "1.2.3-rc.2"; "1.2.3"; "1.9.9"; "1.9.9-rc.1"; "2.0.0"; "2.0.0-a"] = [false; true; true; true; true; false; false; false] /\
  map (chosen "^0.3.1") ["0.3.0"; "0.3.1"; "0.3.99+b"; "0.4.0"; "0.3.1-a"] = [false; true; true; false; false] /\
  map (chosen "^0.0.3") ["0.0.3"; "0.0.4"] = [true; false] /\ map (chosen "~1") ["1.0.0"; "1.9.0"; "2.0.0"] = [true; true; false] /\
  map (chosen ">1.2, <=1.4") ["1.2.9"; "1.3.0"; "1.4.9"; "1.5.0"] = [false; true; true; false].
Proof. repeat match goal with |- _ /\ _ => split end; try (vm_compute; reflexivity). vm_compute. discriminate. Qed.
(** "What lies between two selected versions is selected" fails with pre-releases of other numbers; "what is selected by [>=] stays selected as
    versions grow" likewise; and [>=1.2] does not select the pre-releases of 1.2.0 even when they are named, although it is met by those of
    1.3.0. *)
Theorem C93_no_gaps_at_all_refuted :
  (exists r u v w, req_wf r = true /\ before u v /\ before v w /\ req_matches r u = true /\ req_matches r w = true /\ req_matches r v = false) /\
  (exists r v w, r = req_of ">=1.0.0" /\ from_on (release 1 0 0) v /\ from_on v w /\ req_matches r v = true /\ req_matches r w = false) /\
  (chosen ">=1.2, >=1.2.0-a" "1.2.0-b" = false /\ chosen ">=1.2, >=1.3.0-a" "1.3.0-b" = true).
Proof.
  split; [|split].
  - exists (req_of ">=1.0.0-a"), (v_of "1.0.0-a"), (v_of "1.1.0-a"), (v_of "1.1.0"). split; [reflexivity|]. split; [left; right; split; [reflexivity|left; reflexivity]|].
    split; [right; split; [repeat split|reflexivity]|]. repeat split; vm_compute; reflexivity.
  - exists (req_of ">=1.0.0"), (release 1 0 0), (v_of "1.1.0-a"). split; [reflexivity|]. split; [right; repeat split|].
    split; [left; left; right; split; [reflexivity|left; reflexivity]|]. split; vm_compute; reflexivity.
  - split; vm_compute; reflexivity.
Qed.
Print Assumptions C93_no_gaps_at_all_refuted.
