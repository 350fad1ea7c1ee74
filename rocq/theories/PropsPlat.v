(** Property theorems C47, C57, C58 (platforms). *)
From Coq Require Import List NArith Ascii String Bool Arith Lia.
From Verif Require Import Base StrLib PlatData PlatModel PlatSpec.
Import ListNotations.
Local Open Scope string_scope.
Local Infix "++" := String.append (right associativity, at level 60).

Lemma last_char_app s c : last_char (s ++ String c "") = Some c.
Proof. induction s as [|a s IH]; [reflexivity|]. cbn. destruct (s ++ String c "") eqn:E; [destruct s; discriminate|exact IH]. Qed.
Lemma last_char_inv s c : last_char s = Some c -> exists x, s = x ++ String c "".
Proof.
  induction s as [|a s IH]; cbn; [discriminate|]. destruct s as [|b s].
  - intros H. injection H as ->. exists "". reflexivity.
  - intros H. destruct (IH H) as [x E]. exists (String a x). cbn. rewrite E. reflexivity.
Qed.
Lemma last_char_none s : last_char s = None -> s = "".
Proof. destruct s as [|a s]; [reflexivity|]. revert a. induction s as [|b s IH]; intros a; cbn; [discriminate|]. intros H. discriminate (IH b H). Qed.
Lemma substring_0_app a b : substring 0 (String.length a) (a ++ b) = a.
Proof. induction a as [|x a IH]; cbn; [destruct b; reflexivity|]. rewrite IH. reflexivity. Qed.
Lemma substring_full s : substring 0 (String.length s) s = s.
Proof. rewrite <- (sapp_nil_r s) at 2. apply substring_0_app. Qed.
Definition ends_star (s : string) : bool := match last_char s with Some l => Ascii.eqb l "*" | None => false end.
Lemma ends_star_spec s : ends_star s = true <-> ends_in_star s.
Proof.
  unfold ends_star. split.
  - destruct (last_char s) as [c|] eqn:E; [|discriminate]. intros H. apply Ascii.eqb_eq in H as ->. exact (last_char_inv s _ E).
  - intros [x ->]. rewrite last_char_app. reflexivity.
Qed.

(** ** C47 *)
Lemma preq_cases c rest t : preq_matches (String c rest) t =
  if Ascii.eqb c "*" then
    if String.eqb rest "" then Ok true
    else if ends_star rest then Ok (contains (substring 0 (String.length rest - 1) rest) t)
    else Ok (ends_with rest t)
  else if ends_star rest then Ok (starts_with (String c (substring 0 (String.length rest - 1) rest)) t)
  else Ok (String.eqb (String c rest) t).
Proof.
  unfold preq_matches. cbn [String.length]. fold (ends_star rest).
  destruct (Ascii.eqb_spec c "*") as [->|n]; rewrite ?andb_true_r, ?andb_false_r.
  - destruct rest as [|d rest]; [reflexivity|]. cbn [String.length Nat.eqb].
    change (String.eqb (String d rest) "") with false. cbn iota.
    destruct (ends_star (String d rest)).
    + cbn [substring Nat.sub]. repeat f_equal; try lia.
    + f_equal. f_equal. change (substring 0 (String.length (String d rest)) (String d rest) = String d rest). apply substring_full.
  - destruct (ends_star rest) eqn:E; [|reflexivity].
    f_equal. f_equal. destruct rest as [|d rest]; [discriminate E|].
    cbn [String.length Nat.sub substring]. rewrite Nat.sub_0_r. reflexivity.
Qed.

Theorem C47_glob_semantics : forall req triple, req <> "" ->
  exists b, preq_matches req triple = Ok b /\ (b = true <-> glob req triple).
Proof.
  intros [|c rest] t Hne; [contradiction|]. rewrite preq_cases.
  destruct (Ascii.eqb_spec c "*") as [->|n].
  - destruct (String.eqb_spec rest "") as [->|Hr].
    + exists true. split; [reflexivity|]. split; [intros _; constructor|reflexivity].
    + destruct (ends_star rest) eqn:E.
      * eexists. split; [reflexivity|]. apply ends_star_spec in E as [m ->].
        rewrite slength_app. cbn [String.length]. replace (String.length m + 1 - 1)%nat with (String.length m) by lia.
        rewrite substring_0_app, contains_spec. split.
        -- intros (a & b & ->). exact (glob_contains m a b).
        -- intros H. inversion H as [t' Et|m' a b Et|m' a Hm Hs Et|m' b Hm Hs Et|m' Hs _ Et]; subst.
           ++ exfalso. destruct m; discriminate.
           ++ apply sapp_inj_r in Et. subst m'. eauto.
           ++ exfalso. apply Hs. exists m. reflexivity.
           ++ exfalso. destruct m'; [contradiction|]. injection Et as -> _. apply Hs. eexists; reflexivity.
           ++ exfalso. apply Hs. eexists; reflexivity.
      * eexists. split; [reflexivity|]. rewrite ends_with_spec.
        assert (Hs : ~ ends_in_star rest) by (rewrite <- ends_star_spec; congruence). split.
        -- intros [a ->]. exact (glob_suffix rest a Hr Hs).
        -- intros H. inversion H as [t' Et|m' a b Et|m' a Hm Hs' Et|m' b Hm Hs' Et|m' Hs' _ Et]; subst.
           ++ contradiction.
           ++ exfalso. apply Hs. exists m'. reflexivity.
           ++ eauto.
           ++ exfalso. destruct m'; [contradiction|]. injection Et as -> _. apply Hs'. eexists; reflexivity.
           ++ exfalso. apply Hs'. eexists; reflexivity.
  - assert (Hn : ~ starts_with_star (String c rest)) by (intros [x Ex]; injection Ex as -> _; contradiction).
    destruct (ends_star rest) eqn:E.
    + eexists. split; [reflexivity|]. apply ends_star_spec in E as [m ->].
      rewrite slength_app. cbn [String.length]. replace (String.length m + 1 - 1)%nat with (String.length m) by lia.
      rewrite substring_0_app, starts_with_spec. split.
      * intros (b & ->). apply (glob_prefix (String c m) b); [discriminate|].
        intros [x Ex]. injection Ex as -> _. contradiction.
      * intros H. inversion H as [t' Et|m' a b Et|m' a Hm Hs' Et|m' b Hm Hs' Et|m' Hs' He Et]; subst; try contradiction.
        -- exists b. change (String c (m ++ "*")) with (String c m ++ "*") in Et. apply sapp_inj_r in Et. subst m'. reflexivity.
        -- exfalso. apply He. exists (String c m). reflexivity.
    + eexists. split; [reflexivity|].
      assert (Hs : ~ ends_in_star (String c rest)).
      { intros [x Ex]. destruct x as [|d x]; [injection Ex as -> _; contradiction|]. injection Ex as _ ->.
        assert (ends_star (x ++ "*") = true) by (apply ends_star_spec; eexists; reflexivity). congruence. }
      rewrite String.eqb_eq. split.
      * intros <-. apply glob_exact; assumption.
      * intros H. inversion H as [t' Et|m' a b Et|m' a Hm Hs' Et|m' b Hm Hs' Et|m' Hs' He Et]; subst; try contradiction; try reflexivity.
        exfalso. apply Hs. exists m'. congruence.
Qed.
Print Assumptions C47_glob_semantics.

Lemma matching_in_spec req ps : req <> "" -> exists l, matching_in req ps = Ok l /\
  (forall p, In p l <-> In p ps /\ glob req (pf_triple p)) /\
  (forall sel, (forall p, sel p = true <-> glob req (pf_triple p)) -> l = filter sel ps).
Proof.
  intros Hne. induction ps as [|p ps (l & El & Hin & Hf)].
  - exists []. split; [reflexivity|]. split; [intros p; cbn; tauto|reflexivity].
  - cbn [matching_in]. destruct (C47_glob_semantics req (pf_triple p) Hne) as (b & Eb & Hb). rewrite Eb, El. cbn [obind].
    eexists. split; [reflexivity|]. split.
    + intros q. destruct b.
      * cbn. rewrite Hin. split; [intros [<-|H]; [|tauto]; split; [left; reflexivity|apply Hb; reflexivity]|]. tauto.
      * rewrite Hin. cbn. split; [tauto|]. intros [[<-|H] G]; [|tauto]. apply Hb in G. discriminate.
    + intros sel Hs. cbn [filter]. rewrite (Hf sel Hs). specialize (Hs p). destruct b, (sel p); try reflexivity.
      * assert (false = true) by (apply Hs, Hb; reflexivity). discriminate.
      * assert (false = true) by (apply Hb, Hs; reflexivity). discriminate.
Qed.

Theorem C47_matching_platforms : forall req, req <> "" -> exists l, matching_platforms req = Ok l /\
  (forall p, In p l <-> In p ALL /\ glob req (pf_triple p)) /\
  (forall sel, (forall p, sel p = true <-> glob req (pf_triple p)) -> l = filter sel ALL).
Proof. intros req H. exact (matching_in_spec req ALL H). Qed.
Print Assumptions C47_matching_platforms.

Theorem C47_requirement_accepted_iff : forall s,
  preq_from_str s <> Panic /\
  (forall r, preq_from_str s = Ok r <-> r = s /\ s <> "" /\ exists p, In p ALL /\ glob s (pf_triple p)).
Proof.
  intros s. unfold preq_from_str. destruct (String.eqb_spec s "") as [->|Hne].
  - split; [discriminate|]. intros r. split; [discriminate|]. intros (_ & H & _). contradiction.
  - destruct (C47_matching_platforms s Hne) as (l & -> & Hin & _). cbn [obind]. destruct l as [|p l].
    + split; [discriminate|]. intros r. split; [discriminate|]. intros (_ & _ & p & Hp). apply Hin in Hp as [].
    + split; [discriminate|]. intros r. split.
      * intros H. injection H as <-. split; [reflexivity|]. split; [exact Hne|]. exists p. apply Hin. left; reflexivity.
      * intros (-> & _). reflexivity.
Qed.
Print Assumptions C47_requirement_accepted_iff.

Example C47_nonvacuous :
  glob "*windows*" "x86_64-pc-windows-msvc" /\ ~ glob "*-gnu" "x86_64-unknown-linux-gnueabi" /\
  preq_from_str "***" = Err /\ preq_from_str "x86_64-*-gnu" = Err /\
  (exists l, matching_platforms "sparc*" = Ok l /\ map pf_triple l =
     ["sparc-unknown-linux-gnu"; "sparc-unknown-none-elf"; "sparc64-unknown-helenos"; "sparc64-unknown-linux-gnu";
      "sparc64-unknown-netbsd"; "sparc64-unknown-openbsd"; "sparcv9-sun-solaris"]).
Proof.
  split; [exact (glob_contains "windows" "x86_64-pc-" "-msvc")|]. split.
  - destruct (C47_glob_semantics "*-gnu" "x86_64-unknown-linux-gnueabi") as (b & E & Hb); [discriminate|].
    rewrite <- Hb. vm_compute in E. injection E as <-. discriminate.
  - split; [vm_compute; reflexivity|]. split; [vm_compute; reflexivity|]. eexists. split; vm_compute; reflexivity.
Qed.

(** ** C57: the target attribute names *)
Lemma find_table {A} (t : list (string * A)) s e : find (fun e => String.eqb s (fst e)) t = Some e -> In e t /\ fst e = s.
Proof. intros H. apply find_some in H as [Hi He]. apply String.eqb_eq in He. auto. Qed.
(** From [as_str] and the table being inverse on the finitely many constructors and rows. *)
Lemma names_ok {A} (str : A -> string) (t : list (string * A)) :
  (forall x, find (fun e => String.eqb (str x) (fst e)) t = Some (str x, x)) ->
  (forall e, In e t -> str (snd e) = fst e) ->
  forall s x, (match find (fun e => String.eqb s (fst e)) t with Some e => Ok (snd e) | None => Err end) = Ok x <-> str x = s.
Proof.
  intros Hf Hr s x. split.
  - destruct (find _ t) as [e|] eqn:E; [|discriminate]. intros H. injection H as <-.
    apply find_table in E as [Hi <-]. apply Hr, Hi.
  - intros <-. rewrite Hf. reflexivity.
Qed.
Ltac rows := let H := fresh in intros e H; cbn in H; repeat (destruct H as [<-|H]; [reflexivity|]); destruct H.
Ltac names := apply names_ok; [intros []; reflexivity|rows].
Theorem C57_target_names_round_trip :
  (forall s x, arch_from_str s = Ok x <-> arch_str x = s) /\
  (forall s x, os_from_str s = Ok x <-> os_str x = s) /\
  (forall s x, env_from_str s = Ok x <-> env_str x = s) /\
  (forall s x, endian_from_str s = Ok x <-> endian_str x = s) /\
  (forall s x, pointer_width_from_str s = Ok x <-> pointer_width_str x = s) /\
  (forall s x, tier_from_str s = Ok x <-> tier_str x = s).
Proof. split; [names|]. split; [names|]. split; [names|]. split; [names|]. split; names. Qed.
Print Assumptions C57_target_names_round_trip.
Example C57_nonvacuous : os_from_str "windows" = Ok OsWindows /\ os_from_str "Windows" = Err /\ env_from_str "" = Ok EnvNone.
Proof. repeat split. Qed.

(** ** C58: the platform list *)
Fixpoint distinct (l : list string) : bool := match l with [] => true | x :: r => negb (existsb (String.eqb x) r) && distinct r end.
Lemma distinct_spec l : distinct l = true -> NoDup l.
Proof.
  induction l as [|x l IH]; cbn; [constructor|]. intros H. apply andb_prop in H as [H1 H2]. constructor; [|auto].
  intros Hx. rewrite (proj2 (existsb_exists (String.eqb x) l)) in H1; [discriminate H1|].
  exists x. split; [exact Hx|apply String.eqb_refl].
Qed.
Lemma all_nodup : NoDup (map pf_triple ALL).
Proof. apply distinct_spec. vm_compute. reflexivity. Qed.
Lemma find_nodup (ps : list platform) p : NoDup (map pf_triple ps) -> In p ps ->
  find (fun q => String.eqb (pf_triple q) (pf_triple p)) ps = Some p.
Proof.
  induction ps as [|q ps IH]; [intros _ []|]. cbn. intros N [<-|H]; [rewrite String.eqb_refl; reflexivity|].
  inversion N as [|? ? Hn Nr]; subst. destruct (String.eqb_spec (pf_triple q) (pf_triple p)) as [e|_]; [|auto].
  exfalso. apply Hn. rewrite e. apply in_map. exact H.
Qed.
Theorem C58_find_is_exact : forall triple p, platform_find triple = Some p <-> In p ALL /\ pf_triple p = triple.
Proof.
  intros t p. unfold platform_find. split.
  - intros H. apply find_some in H as [Hi He]. apply String.eqb_eq in He. auto.
  - intros [Hi <-]. apply find_nodup; [exact all_nodup|exact Hi].
Qed.
Print Assumptions C58_find_is_exact.
Definition triple_plain (t : string) : bool := negb (String.eqb t "") && negb (has_char "*" t).
Theorem C58_triple_as_requirement_selects_that_platform : forall p, In p ALL -> matching_platforms (pf_triple p) = Ok [p].
Proof.
  intros p Hp.
  assert (A : forallb (fun p => triple_plain (pf_triple p)) ALL = true) by (vm_compute; reflexivity).
  assert (G : triple_plain (pf_triple p) = true) by exact (proj1 (forallb_forall _ _) A p Hp).
  apply andb_prop in G as [G1 G2].
  assert (Hne : pf_triple p <> "") by (intros E; rewrite E in G1; discriminate G1).
  assert (Hst : has_char "*" (pf_triple p) = false) by (destruct (has_char "*" (pf_triple p)); [discriminate G2|reflexivity]).
  clear A G1 G2.
  destruct (C47_matching_platforms (pf_triple p) Hne) as (l & -> & _ & Hf). f_equal.
  rewrite (Hf (fun q => String.eqb (pf_triple q) (pf_triple p))).
  - pose proof all_nodup as N. revert N Hp. clear. generalize ALL as ps. induction ps as [|q ps IH]; [intros _ []|]. cbn.
    intros N H. inversion N as [|? ? Hn Nr]; subst. destruct H as [->|H].
    + rewrite String.eqb_refl. f_equal.
      assert (K : forall qs, ~ In (pf_triple p) (map pf_triple qs) -> filter (fun q => String.eqb (pf_triple q) (pf_triple p)) qs = []).
      { induction qs as [|r qs IHq]; [reflexivity|]. cbn. intros Hq. destruct (String.eqb_spec (pf_triple r) (pf_triple p)); [exfalso; apply Hq; left; assumption|].
        apply IHq. tauto. }
      apply K, Hn.
    + destruct (String.eqb_spec (pf_triple q) (pf_triple p)) as [e|_]; [|auto].
      exfalso. apply Hn. rewrite e. apply in_map, H.
  - intros q. rewrite String.eqb_eq.
    assert (Hc : forall x y, pf_triple p = x ++ String "*" y -> False).
    { intros x y E. rewrite E, has_char_app in Hst. cbn in Hst. rewrite orb_true_r in Hst. discriminate Hst. }
    split.
    + intros ->. apply glob_exact; [intros [x E]; exact (Hc "" x E)|intros [x E]; exact (Hc x "" E)].
    + intros H. inversion H as [t' Et|m' a b Et|m' a Hm Hs' Et|m' b Hm Hs' Et|m' Hs' He Et]; subst; try reflexivity; exfalso.
      * symmetry in Et. exact (Hc "" "" Et).
      * symmetry in Et. exact (Hc "" _ Et).
      * symmetry in Et. exact (Hc "" _ Et).
      * symmetry in Et. exact (Hc m' "" Et).
Qed.
Print Assumptions C58_triple_as_requirement_selects_that_platform.
Example C58_nonvacuous : exists p, platform_find "x86_64-unknown-linux-gnu" = Some p /\ pf_os p = OsLinux /\ pf_tier p = TierOne.
Proof. eexists. vm_compute. repeat split. Qed.
