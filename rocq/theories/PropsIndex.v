(** Property theorems C51 (yanked check). *)
From Coq Require Import List NArith Ascii String Bool Arith.
From Verif Require Import Base SemverModel StrLib VerText PkgModel UrlModel LockModel TreeModel TreeProofs IndexModel IndexSpec.
Import ListNotations.
Local Open Scope string_scope.

Lemma find_rev_listed (k : krate) v y : krate_get v k = Some y <-> listed k v y.
Proof.
  unfold krate_get, listed. induction k as [|[w z] k IH] using rev_ind.
  - cbn. split; [discriminate|]. intros (b & a & E & _). destruct b; discriminate.
  - rewrite rev_app_distr. cbn [rev app find fst]. destruct (String.eqb_spec w v) as [->|n].
    + cbn. split.
      * intros H. injection H as ->. exists k, []. split; [reflexivity|]. intros y' [].
      * intros (b & a & E & N). destruct a as [|x a _] using rev_ind.
        -- apply app_inj_tail in E as [_ E]. injection E as ->. reflexivity.
        -- exfalso. rewrite app_comm_cons, app_assoc in E. apply app_inj_tail in E as [_ <-]. apply (N z). apply in_or_app. right; left; reflexivity.
    + rewrite IH. split; intros (b & a & E & N).
      * exists b, (a ++ [(w, z)])%list. split; [rewrite E, app_comm_cons, app_assoc; reflexivity|].
        intros y' H. apply in_app_or in H as [H|[H|[]]]; [exact (N y' H)|]. injection H as -> _. contradiction.
      * destruct a as [|x a _] using rev_ind.
        -- exfalso. apply app_inj_tail in E as [_ E]. injection E as -> _. contradiction.
        -- rewrite app_comm_cons, app_assoc in E. apply app_inj_tail in E as [-> _]. exists b, a. split; [reflexivity|].
           intros y' H. apply (N y'). apply in_or_app. left; exact H.
Qed.

(** ** Deduplication *)
Lemma pkg_insert_in p l q : In q (pkg_insert p l) -> q = p \/ In q l.
Proof.
  induction l as [|x l IH]; cbn; [intros [<-|[]]; auto|]. destruct (package_cmp p x); cbn.
  - tauto.
  - intros [<-|H]; tauto.
  - intros [<-|H]; [tauto|]. apply IH in H. tauto.
Qed.
Lemma pkg_insert_keeps p l q : In q l -> In q (pkg_insert p l).
Proof.
  induction l as [|x l IH]; cbn; [intros []|]. destruct (package_cmp p x); cbn; [tauto|tauto|]. intros [<-|H]; [left; reflexivity|right; auto].
Qed.
Lemma package_cmp_same p x : package_cmp p x = Eq -> same_release p x.
Proof.
  unfold package_cmp, same_release. destruct (str_cmp (p_name p) (p_name x)) eqn:E1; cbn; try discriminate.
  apply (cmp_eq _ str_cmp_laws) in E1. destruct (version_cmp (p_version p) (p_version x)) eqn:E2; cbn; try discriminate.
  apply (cmp_eq _ version_cmp_laws) in E2. auto.
Qed.
Lemma pkg_insert_has p l : exists q, In q (pkg_insert p l) /\ same_release p q.
Proof.
  induction l as [|x l (q & Hq & S)]; cbn; [exists p; split; [left; reflexivity|split; reflexivity]|].
  destruct (package_cmp p x) eqn:E; cbn.
  - exists x. split; [left; reflexivity|apply package_cmp_same; exact E].
  - exists p. split; [left; reflexivity|split; reflexivity].
  - exists q. split; [right; exact Hq|exact S].
Qed.
Lemma dedup_fold ps : forall acc,
  (forall q, In q (fold_left (fun s p => pkg_insert p s) ps acc) -> In q ps \/ In q acc) /\
  (forall q, In q acc -> In q (fold_left (fun s p => pkg_insert p s) ps acc)) /\
  (forall p, In p ps -> exists q, In q (fold_left (fun s p => pkg_insert p s) ps acc) /\ same_release p q).
Proof.
  induction ps as [|p ps IH]; intros acc; cbn [fold_left]; [split; [tauto|]; split; [tauto|intros p []]|].
  destruct (IH (pkg_insert p acc)) as (A & B & C). split; [|split].
  - intros q H. apply A in H as [H|H]; [left; right; exact H|]. apply pkg_insert_in in H as [->|H]; [left; left; reflexivity|right; exact H].
  - intros q H. apply B, pkg_insert_keeps, H.
  - intros q [<-|H]; [|exact (C q H)]. destruct (pkg_insert_has p acc) as (x & Hx & S). exists x. split; [apply B, Hx|exact S].
Qed.
Lemma dedup_spec ps :
  (forall q, In q (dedup_packages ps) -> In q ps) /\
  (forall p, In p ps -> exists q, In q (dedup_packages ps) /\ same_release p q).
Proof. destruct (dedup_fold ps []) as (A & _ & C). split; [|exact C]. intros q H. destruct (A q H) as [K|[]]. exact K. Qed.
Lemma name_insert_in n l x : In x (name_insert n l) <-> x = n \/ In x l.
Proof.
  induction l as [|y l IH]; cbn; [intuition auto|]. destruct (str_cmp n y) eqn:E; cbn.
  - apply (cmp_eq _ str_cmp_laws) in E as ->. intuition auto.
  - intuition auto.
  - rewrite IH. intuition auto.
Qed.
Lemma package_names_in ps n : In n (package_names ps) <-> exists p, In p ps /\ p_name p = n.
Proof.
  unfold package_names.
  assert (G : forall acc, In n (fold_left (fun s p => name_insert (p_name p) s) ps acc) <-> (exists p, In p ps /\ p_name p = n) \/ In n acc).
  { induction ps as [|p ps IH]; intros acc; cbn [fold_left]; [split; [tauto|intros [(p & [] & _)|H]; exact H]|].
    rewrite IH, name_insert_in. split.
    - intros [(q & Hq & E)|[->|H]]; [left; exists q; cbn; auto|left; exists p; cbn; auto|auto].
    - intros [(q & [->|Hq] & E)|H]; [right; left; auto|left; exists q; auto|auto]. }
  rewrite G. cbn. tauto.
Qed.

(** ** Caches *)
Lemma cache_get_cons n e c m : cache_get m ((n, e) :: c) = if String.eqb n m then Some e else cache_get m c.
Proof. unfold cache_get. cbn. destruct (String.eqb n m); reflexivity. Qed.
Definition sound (truth : string -> entry) (c : cache) : Prop := forall n e, cache_get n c = Some e -> e = truth n.
Definition extends (c c' : cache) : Prop := forall n e, cache_get n c = Some e -> cache_get n c' = Some e.

Lemma local_fold ix ns : forall c, let c' := fold_left (fun c n => (n, ix_local ix n) :: c) ns c in
  forall n, cache_get n c' = if existsb (String.eqb n) ns then Some (ix_local ix n) else cache_get n c.
Proof.
  induction ns as [|m ns IH]; intros c c' n; [reflexivity|]. unfold c'. cbn [fold_left existsb].
  rewrite IH, cache_get_cons. rewrite String.eqb_sym. destruct (String.eqb_spec n m) as [->|d].
  - cbn. destruct (existsb _ ns); reflexivity.
  - reflexivity.
Qed.
Lemma batch_fold (rs : list (string * entry)) : forall c n,
  (exists e, In (n, e) rs /\ cache_get n (fold_left (fun c r => r :: c) rs c) = Some e) \/
  ((forall e, ~ In (n, e) rs) /\ cache_get n (fold_left (fun c r => r :: c) rs c) = cache_get n c).
Proof.
  induction rs as [|[m e] rs IH]; intros c n; [right; split; [intros e []|reflexivity]|]. cbn [fold_left].
  destruct (IH ((m, e) :: c) n) as [(e' & Hi & E)|(N & E)].
  - left. exists e'. split; [right; exact Hi|exact E].
  - rewrite cache_get_cons in E. destruct (String.eqb_spec m n) as [->|d].
    + left. exists e. split; [left; reflexivity|exact E].
    + right. split; [|exact E]. intros e' [H|H]; [injection H as -> _; contradiction|exact (N e' H)].
Qed.
Lemma populate_extends ix c ns : only_requested ix -> extends c (fst (populate_cache ix c ns)).
Proof.
  intros O n e H. unfold populate_cache. set (missing := filter _ ns).
  assert (M : In n missing -> False).
  { intros Hm. apply filter_In in Hm as [_ Hm]. rewrite H in Hm. discriminate. }
  destruct (ix_remote ix).
  - destruct (ix_batch ix missing) as [rs|] eqn:E; [|exact H]. cbn [fst].
    destruct (batch_fold rs c n) as [(e' & Hi & _)|(_ & ->)]; [|exact H].
    exfalso. apply M. exact (O missing rs n e' E Hi).
  - cbn [fst]. rewrite local_fold. destruct (existsb (String.eqb n) missing) eqn:E; [|exact H].
    exfalso. apply existsb_exists in E as (x & Hx & Ex). apply String.eqb_eq in Ex as <-. exact (M Hx).
Qed.
Lemma populate_sound truth ix c ns : answers truth ix -> sound truth c ->
  sound truth (fst (populate_cache ix c ns)) /\ snd (populate_cache ix c ns) = true /\
  (forall n, In n ns -> cache_get n (fst (populate_cache ix c ns)) = Some (truth n)).
Proof.
  intros A S. unfold answers in A. unfold populate_cache. set (missing := filter _ ns).
  assert (M : forall n, In n ns -> cache_get n c = None -> In n missing).
  { intros n Hn H. apply filter_In. split; [exact Hn|]. rewrite H. reflexivity. }
  destruct (ix_remote ix).
  - destruct (A missing) as (rs & -> & A1 & A2). cbn [fst snd]. split; [|split; [reflexivity|]].
    + intros n e H. destruct (batch_fold rs c n) as [(e' & Hi & E)|(_ & E)]; rewrite E in H.
      * injection H as ->. apply (A2 n e Hi).
      * exact (S n e H).
    + intros n Hn. destruct (batch_fold rs c n) as [(e' & Hi & E)|(N & E)]; rewrite E.
      * f_equal. apply (A2 n e' Hi).
      * destruct (cache_get n c) as [e|] eqn:G; [f_equal; exact (S n e G)|].
        exfalso. exact (N _ (A1 n (M n Hn G))).
  - cbn [fst snd]. split; [|split; [reflexivity|]].
    + intros n e. rewrite local_fold. destruct (existsb _ missing); [intros H; injection H as <-; apply A|apply S].
    + intros n Hn. rewrite local_fold. destruct (existsb (String.eqb n) missing) eqn:E; [f_equal; apply A|].
      destruct (cache_get n c) as [e|] eqn:G; [f_equal; exact (S n e G)|].
      assert (existsb (String.eqb n) missing = true); [|congruence].
      apply existsb_exists. exists n. split; [exact (M n Hn G)|apply String.eqb_refl].
Qed.

(** What one package gives, from the entry of its crate. *)
Definition status (e : entry) (v : version) : outcome bool :=
  match e with
  | Some (Some k) => match krate_get (print_version v) k with Some y => Ok y | None => Err end
  | _ => Err
  end.
Lemma status_says e v y : status e v = Ok y <-> says e v y.
Proof.
  unfold status, says. destruct e as [[k|]|].
  - rewrite <- find_rev_listed || idtac. split.
    + destruct (krate_get (print_version v) k) as [z|] eqn:E; [|discriminate]. intros H. injection H as ->.
      exists k. split; [reflexivity|]. apply find_rev_listed. exact E.
    + intros (k' & Ek & L). injection Ek as <-. apply find_rev_listed in L. rewrite L. reflexivity.
  - split; [discriminate|]. intros (k & H & _). discriminate.
  - split; [discriminate|]. intros (k & H & _). discriminate.
Qed.
Lemma status_unknown e v : status e v = Err <-> unknown e v.
Proof.
  unfold unknown. split.
  - intros H y Hs. apply status_says in Hs. congruence.
  - intros H. destruct (status e v) as [y| |] eqn:E; [|reflexivity|].
    + exfalso. apply (H y). apply status_says. exact E.
    + unfold status in E. destruct e as [[k|]|]; try discriminate. destruct (krate_get _ k); discriminate.
Qed.
Lemma status_nopanic e v : status e v <> Panic.
Proof. unfold status. destruct e as [[k|]|]; try discriminate. destruct (krate_get _ k); discriminate. Qed.
Definition result_of (y : outcome bool) (p : package) : list yank_result :=
  match y with Ok true => [Yanked p] | Ok false => [] | _ => [YankError] end.
Lemma is_yanked_spec ix c p : exists e, cache_get (p_name p) (fst (is_yanked ix c p)) = Some e /\
  snd (is_yanked ix c p) = status e (p_version p) /\ extends c (fst (is_yanked ix c p)) /\
  (forall n e', cache_get n (fst (is_yanked ix c p)) = Some e' -> cache_get n c = Some e' \/ e' = ix_local ix n).
Proof.
  unfold is_yanked. destruct (cache_get (p_name p) c) as [e|] eqn:E; cbn [fst snd].
  - exists e. split; [exact E|]. split; [rewrite E; destruct e as [[k|]|]; reflexivity|]. split; [intros n e' H; exact H|tauto].
  - exists (ix_local ix (p_name p)). rewrite cache_get_cons, String.eqb_refl. split; [reflexivity|].
    split; [destruct (ix_local ix (p_name p)) as [[k|]|]; reflexivity|]. split.
    + intros n e' H. rewrite cache_get_cons. destruct (String.eqb_spec (p_name p) n) as [<-|_]; [congruence|exact H].
    + intros n e'. rewrite cache_get_cons. destruct (String.eqb_spec (p_name p) n) as [<-|_]; [|tauto].
      intros H. injection H as <-. right. reflexivity.
Qed.
Lemma yanked_loop_spec ix ps : forall c, exists ent : string -> entry,
  extends c (fst (yanked_loop ix c ps)) /\
  (forall p, In p ps -> cache_get (p_name p) (fst (yanked_loop ix c ps)) = Some (ent (p_name p))) /\
  snd (yanked_loop ix c ps) = Ok (flat_map (fun p => result_of (status (ent (p_name p)) (p_version p)) p) ps) /\
  (forall n e', cache_get n (fst (yanked_loop ix c ps)) = Some e' -> cache_get n c = Some e' \/ e' = ix_local ix n).
Proof.
  induction ps as [|p ps IH]; intros c.
  - exists (fun _ => None). cbn. split; [intros n e H; exact H|]. split; [intros p []|]. split; [reflexivity|tauto].
  - cbn [yanked_loop]. destruct (is_yanked_spec ix c p) as (e & G & Y & X & O). destruct (is_yanked ix c p) as [c1 y].
    cbn [fst snd] in *. subst y. destruct (IH c1) as (ent & X2 & In2 & R & O2). destruct (yanked_loop ix c1 ps) as [c2 rest].
    cbn [fst snd] in *. subst rest.
    pose proof (X2 _ _ G) as G2.
    exists (fun n => if String.eqb n (p_name p) then e else ent n). split; [intros n e' H; apply X2, X, H|]. split; [|split].
    + intros q [<-|Hq]; [rewrite String.eqb_refl; exact G2|].
      destruct (String.eqb_spec (p_name q) (p_name p)) as [En|_]; [rewrite En; exact G2|exact (In2 q Hq)].
    + cbn [flat_map]. rewrite String.eqb_refl.
      assert (F : flat_map (fun q => result_of (status (if String.eqb (p_name q) (p_name p) then e else ent (p_name q)) (p_version q)) q) ps
                  = flat_map (fun q => result_of (status (ent (p_name q)) (p_version q)) q) ps).
      { assert (K : forall q, In q ps -> result_of (status (if String.eqb (p_name q) (p_name p) then e else ent (p_name q)) (p_version q)) q
                      = result_of (status (ent (p_name q)) (p_version q)) q).
        { intros q Hq. destruct (String.eqb_spec (p_name q) (p_name p)) as [En|_]; [|reflexivity].
          pose proof (In2 q Hq) as H. rewrite En, G2 in H. injection H as ->. rewrite En. reflexivity. }
        revert K. clear. induction ps as [|q ps IH]; intros K; [reflexivity|]. cbn [flat_map]. rewrite K by (left; reflexivity).
        f_equal. apply IH. intros r Hr. apply K. right; exact Hr. }
      rewrite F. pose proof (status_nopanic e (p_version p)). destruct (status e (p_version p)) as [[|]| |]; cbn; try reflexivity. contradiction.
    + intros n e' H. apply O2 in H as [H|H]; [|right; exact H]. exact (O n e' H).
Qed.

Lemma find_yanked_extends ix c ps : only_requested ix -> extends c (fst (find_yanked ix c ps)).
Proof.
  intros O n e H. unfold find_yanked. pose proof (populate_extends ix c (package_names (dedup_packages ps)) O n e H) as K.
  destruct (populate_cache ix c _) as [c1 ok]. cbn [fst] in K.
  destruct (yanked_loop_spec ix (dedup_packages ps) c1) as (ent & X & _). destruct (yanked_loop ix c1 _) as [c2 r]. cbn [fst] in *.
  exact (X n e K).
Qed.
Lemma yanked_loop_cached ix : forall qs c, (forall q, In q qs -> cache_get (p_name q) c <> None) -> fst (yanked_loop ix c qs) = c.
Proof.
  induction qs as [|q qs IH]; intros c' Hq; [reflexivity|]. cbn [yanked_loop]. unfold is_yanked.
  destruct (cache_get (p_name q) c') as [x|] eqn:Eq; [|exfalso; apply (Hq q (or_introl eq_refl)); exact Eq].
  destruct (yanked_loop ix c' qs) as [c'' r] eqn:El. cbn [fst]. rewrite <- (IH c'); [rewrite El; reflexivity|].
  intros r' Hr'. apply Hq. right; exact Hr'.
Qed.
Lemma find_yanked_sound truth ix c ps : answers truth ix -> sound truth c ->
  sound truth (fst (find_yanked ix c ps)) /\
  snd (find_yanked ix c ps) = Ok (flat_map (fun p => result_of (status (truth (p_name p)) (p_version p)) p) (dedup_packages ps)).
Proof.
  intros A S. unfold find_yanked. destruct (populate_sound truth ix c (package_names (dedup_packages ps)) A S) as (S1 & Ok1 & G1).
  destruct (populate_cache ix c _) as [c1 ok]. cbn [fst snd] in *. subst ok.
  assert (Gp : forall p, In p (dedup_packages ps) -> cache_get (p_name p) c1 = Some (truth (p_name p))).
  { intros p Hp. apply G1. apply package_names_in. exists p. auto. }
  pose proof (yanked_loop_cached ix (dedup_packages ps) c1) as K.
  destruct (yanked_loop_spec ix (dedup_packages ps) c1) as (ent & X & In2 & R & O). destruct (yanked_loop ix c1 _) as [c2 r]. cbn [fst snd] in *. subst r.
  rewrite K in * by (intros q Hq; rewrite (Gp q Hq); discriminate).
  split; [exact S1|].
  assert (E : forall p, In p (dedup_packages ps) -> ent (p_name p) = truth (p_name p)).
  { intros p Hp. pose proof (In2 p Hp) as H. rewrite (Gp p Hp) in H. congruence. }
  cbn [obind]. f_equal. clear -E. induction (dedup_packages ps) as [|p qs IH]; [reflexivity|]. cbn [flat_map].
  rewrite E by (left; reflexivity). f_equal. apply IH. intros q Hq. apply E. right; exact Hq.
Qed.
Lemma history_sound truth c : history (answers truth) c -> sound truth c.
Proof. induction 1 as [|ix c ps H IH A]; [intros n e K; discriminate|]. exact (proj1 (find_yanked_sound truth ix c ps A IH)). Qed.

Lemma result_of_yanked y q p : In (Yanked p) (result_of y q) <-> y = Ok true /\ p = q.
Proof.
  unfold result_of. destruct y as [[|]| |]; cbn.
  - split; [intros [H|[]]; injection H as ->; auto|intros [_ ->]; auto].
  - split; [intros []|intros [H _]; discriminate].
  - split; [intros [H|[]]; discriminate|intros [H _]; discriminate].
  - split; [intros [H|[]]; discriminate|intros [H _]; discriminate].
Qed.
(** ** C51 *)
(** After any sequence of earlier calls on an index whose answers do not change, a call never panics and reports
    exactly: each yanked package (up to packages agreeing in name and version), and no package that is not
    yanked. *)
Theorem C51_yanked_exact : forall truth c ix ps, history (answers truth) c -> answers truth ix ->
  exists l, snd (find_yanked ix c ps) = Ok l /\
    (forall p, In (Yanked p) l -> In p ps /\ says (truth (p_name p)) (p_version p) true) /\
    (forall p, In p ps -> says (truth (p_name p)) (p_version p) true -> exists q, In (Yanked q) l /\ same_release p q) /\
    (In YankError l <-> exists p, In p ps /\ unknown (truth (p_name p)) (p_version p)).
Proof.
  intros truth c ix ps H A. destruct (find_yanked_sound truth ix c ps A (history_sound _ _ H)) as (_ & ->).
  eexists. split; [reflexivity|]. destruct (dedup_spec ps) as (D1 & D2). split; [|split; [|split]].
  - intros p Hp. apply in_flat_map in Hp as (q & Hq & R). apply result_of_yanked in R as [E ->].
    split; [apply D1, Hq|]. apply status_says. exact E.
  - intros p Hp Hs. destruct (D2 p Hp) as (q & Hq & En & Ev). exists q. split; [|split; assumption].
    apply in_flat_map. exists q. split; [exact Hq|]. rewrite <- En, <- Ev. apply status_says in Hs. rewrite Hs. left; reflexivity.
  - intros Hp. apply in_flat_map in Hp as (q & Hq & R). exists q. split; [apply D1, Hq|]. apply status_unknown.
    unfold result_of in R. pose proof (status_nopanic (truth (p_name q)) (p_version q)).
    destruct (status (truth (p_name q)) (p_version q)) as [[|]| |]; [destruct R as [R|[]]; discriminate|destruct R|reflexivity|contradiction].
  - intros (p & Hp & U). destruct (D2 p Hp) as (q & Hq & En & Ev). apply in_flat_map. exists q. split; [exact Hq|].
    rewrite <- En, <- Ev. apply status_unknown in U. rewrite U. left; reflexivity.
Qed.
(** The result does not depend on what was asked before. *)
Theorem C51_history_irrelevant : forall truth c ix ps, history (answers truth) c -> answers truth ix ->
  snd (find_yanked ix c ps) = snd (find_yanked ix [] ps).
Proof.
  intros truth c ix ps H A. destruct (find_yanked_sound truth ix c ps A (history_sound _ _ H)) as (_ & ->).
  destruct (find_yanked_sound truth ix [] ps A) as (_ & ->); [intros n e K; discriminate|reflexivity].
Qed.

(** Even if the index is unreliable, a call on any cache gives every package either a verdict or an error, and
    never panics. *)
Lemma find_yanked_shape ix c ps : exists ent ok, 
  snd (find_yanked ix c ps) = Ok ((if ok : bool then [] else [YankError]) ++ flat_map (fun p => result_of (status (ent (p_name p)) (p_version p)) p) (dedup_packages ps))%list /\
  (forall p, In p (dedup_packages ps) -> cache_get (p_name p) (fst (find_yanked ix c ps)) = Some (ent (p_name p))).
Proof.
  unfold find_yanked. destruct (populate_cache ix c _) as [c1 ok].
  destruct (yanked_loop_spec ix (dedup_packages ps) c1) as (ent & X & In2 & R & O). destruct (yanked_loop ix c1 _) as [c2 r].
  cbn [fst snd] in *. subst r. exists ent, ok. split; [|exact In2]. destruct ok; reflexivity.
Qed.
(** Two calls in one session, with any calls in between, on any indices (the index may change or fail between
    them): a release reported yanked by one is reported yanked by the other. *)
Inductive later (P : index -> Prop) : cache -> cache -> Prop :=
| later_refl c : later P c c
| later_call c c' ix ps : later P c c' -> P ix -> later P c (fst (find_yanked ix c' ps)).
Lemma later_extends c c' : later only_requested c c' -> extends c c'.
Proof.
  induction 1 as [c|c c' ix ps H IH A]; intros n e K; [exact K|]. exact (find_yanked_extends ix c' ps A n e (IH n e K)).
Qed.
Theorem C51_verdicts_stable : forall ix1 ix2 c c2 ps1 ps2 l1 l2 p q,
  only_requested ix1 -> only_requested ix2 ->
  later only_requested (fst (find_yanked ix1 c ps1)) c2 ->
  snd (find_yanked ix1 c ps1) = Ok l1 -> snd (find_yanked ix2 c2 ps2) = Ok l2 ->
  In p ps1 -> In q ps2 -> same_release p q ->
  ((exists p', In (Yanked p') l1 /\ same_release p p') <-> (exists q', In (Yanked q') l2 /\ same_release q q')).
Proof.
  intros ix1 ix2 c c2 ps1 ps2 l1 l2 p q O1 O2 L R1 R2 Hp Hq S.
  destruct (find_yanked_shape ix1 c ps1) as (e1 & ok1 & E1 & G1). destruct (find_yanked_shape ix2 c2 ps2) as (e2 & ok2 & E2 & G2).
  rewrite R1 in E1. rewrite R2 in E2. injection E1 as ->. injection E2 as ->.
  destruct (dedup_spec ps1) as (D1 & D1'). destruct (dedup_spec ps2) as (D2 & D2').
  destruct (D1' p Hp) as (p0 & Hp0 & Sp0). destruct (D2' q Hq) as (q0 & Hq0 & Sq0).
  assert (Ee : e1 (p_name p0) = e2 (p_name q0)).
  { pose proof (G1 p0 Hp0) as A. apply (later_extends _ _ L) in A. apply (find_yanked_extends ix2 c2 ps2 O2) in A.
    pose proof (G2 q0 Hq0) as B. destruct Sp0 as [Sp0 _], Sq0 as [Sq0 _], S as [S _]. rewrite <- Sp0 in *. rewrite <- Sq0 in *. rewrite S in *.
    rewrite A in B. congruence. }
  assert (Iff : forall (ok : bool) ent ps x x0, In x0 (dedup_packages ps) -> same_release x x0 ->
     ((exists x', In (Yanked x') ((if ok then [] else [YankError]) ++ flat_map (fun p => result_of (status (ent (p_name p)) (p_version p)) p) (dedup_packages ps))%list /\ same_release x x')
      <-> status (ent (p_name x0)) (p_version x0) = Ok true)).
  { intros ok ent ps x x0 Hx0 Sx. split.
    - intros (x' & Hx' & Sx'). apply in_app_or in Hx' as [Hx'|Hx']; [destruct ok; [destruct Hx'|destruct Hx' as [Hx'|[]]; discriminate]|].
      apply in_flat_map in Hx' as (y & Hy & R). apply result_of_yanked in R as [R ->].
      destruct Sx as [<- <-], Sx' as [-> ->]. exact R.
    - intros K. exists x0. split; [|exact Sx]. apply in_or_app. right. apply in_flat_map. exists x0. split; [exact Hx0|].
      apply result_of_yanked. auto. }
  rewrite (Iff ok1 e1 ps1 p p0 Hp0 Sp0), (Iff ok2 e2 ps2 q q0 Hq0 Sq0).
  rewrite Ee. destruct Sp0 as [_ Sp0], Sq0 as [_ Sq0], S as [_ S]. rewrite <- Sp0, <- Sq0, S. tauto.
Qed.
(** A call never panics, whatever the index does. *)
Theorem C51_never_panics : forall ix c ps, snd (find_yanked ix c ps) <> Panic.
Proof. intros ix c ps. destruct (find_yanked_shape ix c ps) as (e & ok & -> & _). discriminate. Qed.
(** A failed download is visible in the result. *)
Theorem C51_failed_download_reported : forall ix c ps l, ix_remote ix = true ->
  (forall ns, ix_batch ix ns = None) -> snd (find_yanked ix c ps) = Ok l -> In YankError l.
Proof.
  intros ix c ps l R N. unfold find_yanked, populate_cache. rewrite R, N.
  destruct (yanked_loop_spec ix (dedup_packages ps) c) as (ent & X & In2 & E & O). destruct (yanked_loop ix c _) as [c2 r].
  cbn [fst snd] in *. subst r. cbn. intros H. injection H as <-. left. reflexivity.
Qed.

(** Non-vacuity: a session on a local index with two crates, one release yanked, one crate unknown. *)
Definition ex_truth (n : string) : entry :=
  if String.eqb n "foo" then Some (Some [("1.0.0", false); ("1.1.0", true)])
  else if String.eqb n "bar" then Some (Some [("0.1.0", false)]) else Some None.
Definition ex_index : index := mkIndex false ex_truth (fun _ => None).
Definition ex_pkg n a b c : package := mkPkg n (mkVersion a b c [] []) None None [] None.
Example ex_answers : answers ex_truth ex_index.
Proof. intros n. reflexivity. Qed.
Definition ex_remote : index := mkIndex true (fun _ => None) (fun ns => Some (map (fun n => (n, ex_truth n)) ns)).
Example ex_remote_answers : answers ex_truth ex_remote.
Proof.
  intros ns. exists (map (fun n => (n, ex_truth n)) ns). split; [reflexivity|]. split.
  - intros n H. apply in_map_iff. exists n. auto.
  - intros n e H. apply in_map_iff in H as (m & E & Hm). injection E as -> <-. auto.
Qed.
Example ex_only : only_requested ex_remote.
Proof. intros ns rs n e H. injection H as <-. intros K. apply in_map_iff in K as (m & E & Hm). injection E as -> _. exact Hm. Qed.
Example ex_session :
  let c1 := fst (find_yanked ex_remote [] [ex_pkg "foo" 1 0 0]) in
  history (answers ex_truth) c1 /\
  snd (find_yanked ex_remote c1 [ex_pkg "foo" 1 1 0; ex_pkg "bar" 0 1 0; ex_pkg "zzz" 1 0 0; ex_pkg "foo" 1 1 0]) =
    Ok [Yanked (ex_pkg "foo" 1 1 0); YankError].
Proof. split; [apply hist_call; [apply hist_start|exact ex_remote_answers]|vm_compute; reflexivity]. Qed.

Print Assumptions C51_yanked_exact.
Print Assumptions C51_history_irrelevant.
Print Assumptions C51_verdicts_stable.
Print Assumptions C51_never_panics.
Print Assumptions C51_failed_download_reported.
