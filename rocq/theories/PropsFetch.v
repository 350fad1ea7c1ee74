(** C80: fetching the advisory database. *)
From Coq Require Import List NArith ZArith Ascii String Bool Arith Lia.
From Verif Require Import Base StrLib IdModel DbModel DbSpec MtimeModel AuditModel FetchModel FetchSpec IdSpec PropsDb PropsAudit.
Import ListNotations.
Local Open Scope string_scope.

(** ** Paths and working trees *)
Lemma gpath_eqb_iff a : forall b, gpath_eqb a b = true <-> a = b.
Proof.
  induction a as [|x a IH]; destruct b as [|y b]; cbn; try (split; (reflexivity || discriminate)).
  rewrite andb_true_iff, String.eqb_eq, IH. split; [intros [-> ->]; reflexivity|intros H; injection H; auto].
Qed.
Lemma gpath_eqb_refl a : gpath_eqb a a = true.
Proof. apply gpath_eqb_iff. reflexivity. Qed.
Lemma is_prefix_iff a : forall b, is_prefix a b = true <-> covers a b.
Proof.
  unfold covers. induction a as [|x a IH]; destruct b as [|y b]; cbn.
  - split; eauto.
  - split; eauto.
  - split; [discriminate|intros (r & K); discriminate].
  - rewrite andb_true_iff, String.eqb_eq, IH. split.
    + intros [-> (r & ->)]. eauto.
    + intros (r & K). injection K as -> ->. eauto.
Qed.
Lemma covers_refl a : covers a a.
Proof. exists []. now rewrite app_nil_r. Qed.
Lemma content_cons p q c w : content p ((q, c) :: w) = if gpath_eqb q p then Some c else content p w.
Proof. reflexivity. Qed.
Lemma content_filter p f w : (forall e, fst e = p -> f e = true) -> content p (filter f w) = content p w.
Proof.
  intros H. induction w as [|[q c] w IH]; [reflexivity|]. cbn [filter]. destruct (f (q, c)) eqn:E.
  - cbn [content]. now rewrite IH.
  - rewrite IH. cbn [content]. destruct (gpath_eqb q p) eqn:K; [|reflexivity]. apply gpath_eqb_iff in K. rewrite (H (q, c) K) in E. discriminate.
Qed.
Lemma content_filter_none p f w : (forall e, fst e = p -> f e = false) -> content p (filter f w) = None.
Proof.
  intros H. induction w as [|[q c] w IH]; [reflexivity|]. cbn [filter]. destruct (f (q, c)) eqn:E; [|exact IH].
  cbn [content]. destruct (gpath_eqb q p) eqn:K; [|exact IH]. apply gpath_eqb_iff in K. rewrite (H (q, c) K) in E. discriminate.
Qed.
Definition conflict (a b : gpath) : bool := is_prefix a b || is_prefix b a.
Lemma content_write p w e : content p (write_file w e) =
  if gpath_eqb (fst e) p then Some (snd e) else if conflict (fst e) p then None else content p w.
Proof.
  destruct e as [q c]. unfold write_file. cbn [content fst snd]. destruct (gpath_eqb q p) eqn:K; [reflexivity|].
  unfold conflict. destruct (is_prefix q p || is_prefix p q) eqn:E.
  - apply content_filter_none. intros [q' c'] H. cbn in H |- *. subst q'. now rewrite E.
  - apply content_filter. intros [q' c'] H. cbn in H |- *. subst q'. now rewrite E.
Qed.
Lemma content_in p w c : content p w = Some c -> In (p, c) w.
Proof.
  induction w as [|[q d] w IH]; [discriminate|]. cbn [content]. destruct (gpath_eqb q p) eqn:K.
  - apply gpath_eqb_iff in K. intros H. injection H as ->. subst. now left.
  - intros H. right. auto.
Qed.
Lemma in_content p w c : NoDup (map fst w) -> In (p, c) w -> content p w = Some c.
Proof.
  induction w as [|[q d] w IH]; [intros _ []|]. cbn [map fst]. intros N [E|H].
  - injection E as -> ->. cbn. now rewrite gpath_eqb_refl.
  - cbn [content]. destruct (gpath_eqb q p) eqn:K; [|apply IH; [now inversion N|exact H]].
    apply gpath_eqb_iff in K. subst q. inversion N as [|? ? X]. elim X. apply in_map_iff. exists (p, c). auto.
Qed.
Lemma content_none p w : content p w = None <-> ~ In p (map fst w).
Proof.
  split.
  - induction w as [|[q c] w IH]; [intros _ []|]. cbn [content map fst]. destruct (gpath_eqb q p) eqn:K; [discriminate|].
    intros H [->|X]; [rewrite gpath_eqb_refl in K; discriminate|]. exact (IH H X).
  - intros H. destruct (content p w) as [c|] eqn:E; [|reflexivity]. elim H. apply content_in in E. apply in_map_iff. exists (p, c). auto.
Qed.
Lemma conflict_iff a b : conflict a b = true <-> covers a b \/ covers b a.
Proof. unfold conflict. now rewrite orb_true_iff, !is_prefix_iff. Qed.
Lemma good_tail e t : good_tree (e :: t) -> good_tree t.
Proof.
  intros [N G]. split; [now inversion N|]. intros a b Ha Hb. apply G; cbn; auto.
Qed.
Lemma checked_out_cons w e t : checked_out w (e :: t) = checked_out (write_file w e) t.
Proof. reflexivity. Qed.
Lemma checked_out_updated t : forall w, good_tree t -> updated w t (checked_out w t).
Proof.
  induction t as [|e t IH]; intros w G.
  - repeat split; cbn; try easy. intros p _ (q & [] & _).
  - rewrite checked_out_cons. destruct (IH (write_file w e) (good_tail e t G)) as (A & B & C). destruct G as [N G]. cbn [map fst] in N. inversion N as [|? ? Ne Nt]; subst.
    assert (Out : forall p, covers (fst e) p \/ covers p (fst e) -> ~ In p (map fst t)).
    { intros p K X. assert (p = fst e); [|subst; contradiction]. destruct K as [K|K]; [symmetry|]; apply G; cbn; auto. }
    split; [|split].
    + intros p c [E|H]; [|auto]. rewrite E in *. cbn [fst snd] in *.
      rewrite C.
      * rewrite content_write. cbn [fst snd]. now rewrite gpath_eqb_refl.
      * intros (q & Hq & K). refine (Out q _ Hq). destruct K; auto.
    + intros p Hp (q & Hq & K). cbn [map fst] in Hp, Hq.
      assert (Dec : in_the_way t p \/ ~ in_the_way t p).
      { destruct (existsb (fun q => conflict q p) (map fst t)) eqn:E.
        - left. apply existsb_exists in E as (q' & H1 & H2). exists q'. split; [exact H1|]. now apply conflict_iff.
        - right. intros (q' & H1 & H2). apply not_true_iff_false in E. apply E. apply existsb_exists. exists q'. split; [exact H1|]. now apply conflict_iff. }
      destruct Dec as [D|D]; [apply B; [intros X; apply Hp; now right|exact D]|].
      rewrite C by exact D. rewrite content_write. destruct Hq as [<-|Hq]; [|elim D; exists q; auto].
      destruct (gpath_eqb (fst e) p) eqn:E; [apply gpath_eqb_iff in E; elim Hp; now left|].
      apply conflict_iff in K. now rewrite K.
    + intros p Hp. rewrite C.
      * rewrite content_write. destruct (gpath_eqb (fst e) p) eqn:E.
        { apply gpath_eqb_iff in E. subst p. elim Hp. exists (fst e). split; [now left|left; apply covers_refl]. }
        destruct (conflict (fst e) p) eqn:K; [|reflexivity]. apply conflict_iff in K. elim Hp. exists (fst e). split; [now left|exact K].
      * intros (q & Hq & K). apply Hp. exists q. split; [now right|exact K].
Qed.
(** Whatever the tree, each file comes from the tree or was there before. *)
Lemma write_origin w e p c : In (p, c) (write_file w e) -> (p, c) = e \/ In (p, c) w.
Proof. unfold write_file. intros [E|H]; [auto|]. apply filter_In in H. tauto. Qed.
Lemma checkout_origin t : forall w w' p c, In w' (checkout w t) -> In (p, c) w' -> In (p, c) t \/ In (p, c) w.
Proof.
  induction t as [|e t IH]; intros w w' p c; [intros []|]. cbn [checkout]. intros [<-|H] K.
  - apply write_origin in K as [->|K]; [left; now left|auto].
  - destruct (IH _ _ _ _ H K) as [X|X]; [left; now right|]. apply write_origin in X as [->|X]; [left; now left|auto].
Qed.
Lemma last_default {A} (l : list A) : forall a x y, last (a :: l) x = last (a :: l) y.
Proof. induction l as [|b l IH]; intros a x y; [reflexivity|]. cbn [last] in *. apply IH. Qed.
Lemma last_app {A} (l r : list A) d : last (l ++ r)%list d = last r (last l d).
Proof.
  revert d. induction l as [|a l IH]; intros d; [reflexivity|].
  assert (E : forall (m : list A) x y, last (x :: m) y = last m x).
  { intros m x y. destruct m; [reflexivity|]. cbn [last]. apply last_default. }
  rewrite <- app_comm_cons, !E. apply IH.
Qed.
Lemma last_map {A B} (f : A -> B) l : forall x, last (map f l) (f x) = f (last l x).
Proof. induction l as [|a l IH]; intros x; [reflexivity|]. cbn [map]. destruct l; [reflexivity|]. cbn [map last] in *. rewrite <- (IH x). reflexivity. Qed.
Lemma last_cons {A} (m : list A) x y : last (x :: m) y = last m x.
Proof. destruct m; [reflexivity|]. cbn [last]. apply last_default. Qed.
Lemma checkout_last t : forall w, last (checkout w t) w = checked_out w t.
Proof.
  induction t as [|e t IH]; intros w; [reflexivity|]. cbn [checkout]. now rewrite checked_out_cons, <- IH, last_cons.
Qed.

Lemma checked_out_origin t : forall w p c, In (p, c) (checked_out w t) -> In (p, c) t \/ In (p, c) w.
Proof.
  induction t as [|e t IH]; intros w p c H; [auto|]. rewrite checked_out_cons in H. apply IH in H as [H|H]; [left; now right|].
  apply write_origin in H as [->|H]; [left; now left|auto].
Qed.

(** ** The states of a fetch *)
Lemma put_same d p x : put d p x p = x.
Proof. unfold put. now rewrite String.eqb_refl. Qed.
Lemma put_other d p x q : q <> p -> put d p x q = d q.
Proof. intros H. unfold put. destruct (String.eqb_spec q p); [contradiction|reflexivity]. Qed.
Lemma starts_https url : starts_with "https://" url = true <-> has_prefix "https://" url.
Proof. unfold has_prefix. rewrite starts_with_spec. reflexivity. Qed.

Section F.
  Context (server : string -> option gcommit) (above : string -> option string) (now : Z).
  Lemma from_repo_head_ok r c : from_repo_head r = Ok c <-> k_head r = Some c /\ readable c.
  Proof.
    unfold from_repo_head, readable. destruct (k_head r) as [x|]; [|split; [discriminate|intros [K _]; discriminate]].
    assert (V : valid_time (gc_time x) = true <-> (MIN_SECONDS <= t_seconds (gc_time x) <= MAX_SECONDS)%Z /\ (-93599 <= t_offset (gc_time x) <= 93599)%Z).
    { unfold valid_time. rewrite !andb_true_iff, !Z.leb_le. tauto. }
    split.
    - destruct (valid_time (gc_time x)); cbn [negb]; [|discriminate]. destruct (String.eqb_spec (gc_summary x) ""); [discriminate|].
      intros H. injection H as <-. split; [reflexivity|]. destruct (proj1 V eq_refl). auto.
    - intros [H (A & B & C)]. injection H as ->. rewrite (proj2 V (conj A B)). cbn [negb]. destruct (String.eqb_spec (gc_summary c) ""); [contradiction|reflexivity].
  Qed.
  Lemma is_fresh_iff c : is_fresh now c = true <-> younger now c.
  Proof. unfold is_fresh, younger, STALE_AFTER, ninety_days. rewrite Z.ltb_lt. lia. Qed.

  (** The repository worked on, the URL it is fetched from, and its working tree when HEAD is there. *)
  Inductive source (url path : string) (d : disk) : string -> string -> work -> Prop :=
  | from_clone : d path = Nothing -> forall c, server url = Some c -> source url path d path url (checked_out [] (gc_tree c))
  | from_repo q r u : opened above url path d = Some q -> d q = Repo r -> k_origin r = Some u -> source url path d q u (k_work r).
  Definition done (d : disk) (q u : string) (c : gcommit) (w : work) : disk := put d q (Repo (mkClone (Some u) (Some c) w)).
  Lemma opened_nothing url path d : d path = Nothing -> opened above url path d = None.
  Proof. intros E. unfold opened, discovered. now rewrite E. Qed.
  Lemma opened_repo url path d q : opened above url path d = Some q -> exists r, d q = Repo r.
  Proof.
    unfold opened. destruct (discovered above d path) as [q'|] eqn:E.
    - destruct (origin_is url d q') eqn:O; [|destruct (d path) eqn:P; [discriminate|injection 1 as <-; eauto|discriminate]].
      intros H. injection H as <-. unfold origin_is in O. destruct (d q'); try discriminate. eauto.
    - destruct (d path) eqn:P; [discriminate|injection 1 as <-; eauto|discriminate].
  Qed.

  Definition allowed (url path : string) (free : bool) : bool := starts_with "https://" url && has_parent path && free.
  (** Everything about one fetch: it does nothing and does not succeed, or it gets a commit and goes on with it. *)
  Lemma fetch_cases url path ef free d :
    (fst (fetch server above now url path ef free d) = [] /\ forall q, snd (fetch server above now url path ef free d) <> Fetched q) \/
    (exists q u c w pre, allowed url path free = true /\ source url path d q u w /\ server u = Some c /\
       last pre d = done d q u c w /\
       (forall p, p <> q -> last pre d p = d p) /\
       fetch server above now url path ef free d =
         ((pre ++ fst (finish now ef q (last pre d)))%list, snd (finish now ef q (last pre d))) /\
       (forall x, In x pre -> x = done d q u c w \/
          (d path = Nothing /\ q = path /\ (x path = Repo (mkClone None None []) \/ exists h w', x path = Repo (mkClone (Some url) h w') /\ (h = None \/ h = Some c) /\
             (forall p t, In (p, t) w' -> In (p, t) (gc_tree c)))))).
  Proof.
    unfold fetch, allowed. destruct (starts_with "https://" url); cbn [negb andb]; [|left; split; [reflexivity|discriminate]].
    destruct (has_parent path); cbn [negb andb]; [|left; split; [reflexivity|discriminate]].
    destruct free; cbn [negb]; [|left; split; [reflexivity|discriminate]].
    destruct (opened above url path d) as [q|] eqn:O.
    - destruct (d q) as [|r|] eqn:D; try (left; split; [reflexivity|discriminate]).
      destruct (k_origin r) as [u|] eqn:U; [|left; split; [reflexivity|discriminate]].
      destruct (server u) as [c|] eqn:S; [|left; split; [reflexivity|discriminate]].
      right. exists q, u, c, (k_work r), [done d q u c (k_work r)]. split; [reflexivity|].
      split; [eapply from_repo; eassumption|]. split; [exact S|]. split; [reflexivity|].
      split; [intros p Hp; cbn; now apply put_other|].
      split; [unfold then_finish, done; destruct (finish now ef q _); reflexivity|].
      intros x [<-|[]]. auto.
    - destruct (d path) as [|r|] eqn:D; try (left; split; [reflexivity|discriminate]).
      destruct (server url) as [c|] eqn:S; [|left; split; [reflexivity|discriminate]].
      right. exists path, url, c, (checked_out [] (gc_tree c)), (clone_states url path d c).
      assert (L : last (clone_states url path d c) d = done d path url c (checked_out [] (gc_tree c))).
      { unfold clone_states. rewrite !last_cons. unfold done.
        rewrite (last_map (fun w => put d path (Repo (mkClone (Some url) (Some c) w)))). now rewrite checkout_last. }
      split; [reflexivity|]. split; [now apply from_clone|]. split; [exact S|]. split; [exact L|].
      split; [intros p Hp; rewrite L; now apply put_other|].
      split; [unfold then_finish; destruct (finish now ef path _); reflexivity|].
      intros x Hx. right. split; [reflexivity|]. split; [reflexivity|].
      unfold clone_states in Hx. destruct Hx as [<-|[<-|[<-|Hx]]].
      + left. apply put_same.
      + right. exists None, []. split; [apply put_same|]. split; [auto|intros ? ? []].
      + right. exists (Some c), []. split; [apply put_same|]. split; [auto|intros ? ? []].
      + right. apply in_map_iff in Hx as (w & <- & Hw). exists (Some c), w. split; [apply put_same|]. split; [auto|].
        intros p t K. destruct (checkout_origin _ _ _ _ _ Hw K) as [X|[]]. exact X.
  Qed.
  Lemma finish_done ef d q u c w :
    finish now ef q (done d q u c w) =
      match from_repo_head (mkClone (Some u) (Some c) w) with
      | Err => ([], Failed) | Panic => ([], Crashed)
      | Ok _ => (map (fun w' => put (done d q u c w) q (Repo (mkClone (Some u) (Some c) w'))) (checkout w (gc_tree c)),
                 if ef && negb (is_fresh now c) then Failed else Fetched q)
      end.
  Proof.
    unfold finish, done at 1. rewrite put_same. destruct (from_repo_head (mkClone (Some u) (Some c) w)) as [x| |] eqn:E; try reflexivity.
    apply from_repo_head_ok in E as [E _]. cbn in E. injection E as <-. reflexivity.
  Qed.
End F.

(** ** C80 *)
(** Only https, checked before anything else. *)
Theorem C80_requires_https : forall server above now url path ef free d,
  ~ has_prefix "https://" url -> fetch server above now url path ef free d = ([], Failed).
Proof.
  intros. unfold fetch. destruct (starts_with "https://" url) eqn:E; [|reflexivity]. apply starts_https in E. contradiction.
Qed.
Print Assumptions C80_requires_https.
(** The path must have a parent directory, where the lock is; a lock that another process holds is an error of its own.
    Neither touches the disk. *)
Theorem C80_requires_parent : forall server above now url path ef free d,
  path = "" \/ path = "/" -> fetch server above now url path ef free d = ([], Failed).
Proof. intros server above now url path ef free d [->| ->]; unfold fetch; destruct (starts_with "https://" url); reflexivity. Qed.
Print Assumptions C80_requires_parent.
Theorem C80_locked : forall server above now url path ef free d,
  snd (fetch server above now url path ef free d) = Locked <-> has_prefix "https://" url /\ path <> "" /\ path <> "/" /\ free = false.
Proof.
  intros server above now url path ef free d. split.
  - intros H. unfold fetch in H.
    destruct (starts_with "https://" url) eqn:E; cbn [negb] in H; [apply starts_https in E|discriminate H].
    split; [exact E|]; unfold has_parent in H; destruct (String.eqb_spec path "") as [->|N1]; [discriminate H|];
      destruct (String.eqb_spec path "/") as [->|N2]; [discriminate H|]; cbn [orb negb] in H; split; [exact N1|]; split; [exact N2|];
      destruct free; [|reflexivity]; exfalso; cbn [negb] in H.
    assert (Fin : forall ef q d0, snd (finish now ef q d0) <> Locked).
    { intros e q d0. unfold finish. destruct (d0 q); try discriminate. destruct (from_repo_head r); try discriminate. cbn [snd]. destruct (_ && _); discriminate. }
    assert (Th : forall ef q d0 b, snd (then_finish now ef q d0 b) <> Locked).
    { intros e q d0 b. unfold then_finish. specialize (Fin e q (last b d0)). destruct (finish now e q (last b d0)). exact Fin. }
    destruct (opened above url path d) as [q|].
    + destruct (d q); try discriminate H. destruct (k_origin r); [|discriminate H]. destruct (server s); [|discriminate H]. exact (Th _ _ _ _ H).
    + destruct (d path); try discriminate H. destruct (server url); [|discriminate H]. exact (Th _ _ _ _ H).
  - intros (H & N1 & N2 & ->). unfold fetch. apply starts_https in H. rewrite H. cbn [negb]. unfold has_parent.
    destruct (String.eqb_spec path "") as [->|_]; [congruence|]. destruct (String.eqb_spec path "/") as [->|_]; [congruence|]. reflexivity.
Qed.
Print Assumptions C80_locked.

Lemma last_done_ext now ef d q u c w pre : last pre d = done d q u c w -> readable c ->
  fst (finish now ef q (last pre d)) = map (fun w' => put (done d q u c w) q (Repo (mkClone (Some u) (Some c) w'))) (checkout w (gc_tree c)) /\
  snd (finish now ef q (last pre d)) = if ef && negb (is_fresh now c) then Failed else Fetched q.
Proof.
  intros -> R. rewrite finish_done. rewrite (proj2 (from_repo_head_ok (mkClone (Some u) (Some c) w) c)) by auto. split; reflexivity.
Qed.
Lemma end_state d q u c w p :
  last (map (fun w' => put (done d q u c w) q (Repo (mkClone (Some u) (Some c) w'))) (checkout w (gc_tree c))) (done d q u c w) p =
  done d q u c (checked_out w (gc_tree c)) p.
Proof.
  rewrite <- checkout_last. generalize (checkout w (gc_tree c)) as l. unfold done.
  assert (G : forall l w0 x, x p = put d q (Repo (mkClone (Some u) (Some c) w0)) p ->
     last (map (fun w' => put (put d q (Repo (mkClone (Some u) (Some c) w))) q (Repo (mkClone (Some u) (Some c) w'))) l) x p =
     put d q (Repo (mkClone (Some u) (Some c) (last l w0))) p).
  { induction l as [|a l IH]; intros w0 x H; [exact H|]. cbn [map]. rewrite !last_cons. apply IH. unfold put. destruct (String.eqb p q); reflexivity. }
  intros l. apply G. reflexivity.
Qed.

(** The inversion of success. *)
Lemma fetched_inv server above now url path ef free d q :
  snd (fetch server above now url path ef free d) = Fetched q ->
  exists u c w, allowed url path free = true /\ source server above url path d q u w /\ server u = Some c /\ readable c /\ (ef = true -> younger now c) /\
    forall p, fetch_end server above now url path ef free d p = done d q u c (checked_out w (gc_tree c)) p.
Proof.
  intros H. destruct (fetch_cases server above now url path ef free d) as [[_ F]|(q' & u & c & w & pre & A & S & Sv & L & Lo & E & _)]; [elim (F q H)|].
  rewrite E in H. cbn [snd] in H. unfold fetch_end. rewrite E. cbn [fst]. rewrite last_app.
  assert (R : readable c).
  { rewrite L, finish_done in H. destruct (from_repo_head (mkClone (Some u) (Some c) w)) as [x| |] eqn:X; try discriminate.
    apply from_repo_head_ok in X as [X R]. cbn in X. injection X as <-. exact R. }
  destruct (last_done_ext now ef d q' u c w pre L R) as [F1 F2]. rewrite F2 in H.
  destruct (ef && negb (is_fresh now c)) eqn:Fr; [discriminate|]. injection H as ->.
  exists u, c, w. split; [exact A|]. split; [exact S|]. split; [exact Sv|]. split; [exact R|]. split.
  - intros ->. apply is_fresh_iff. now destruct (is_fresh now c).
  - intros p. rewrite F1, L. apply end_state.
Qed.

(** What a successful fetch leaves: at the directory it returns, a clone of [u] whose HEAD is the commit [u] serves, with all
    files of its tree; other files stay unless they are in the way; other directories are not touched.  [u] is the URL asked for,
    or the origin of the clone that was at the path already. *)
Theorem C80_what_is_fetched : forall server above now url path ef free d q,
  snd (fetch server above now url path ef free d) = Fetched q ->
  exists u c w',
    fetch_end server above now url path ef free d q = Repo (mkClone (Some u) (Some c) w') /\
    server u = Some c /\
    (good_tree (gc_tree c) -> updated (work_at d q) (gc_tree c) w') /\
    (u = url \/ q = path /\ exists r, d path = Repo r /\ k_origin r = Some u) /\
    (forall p, p <> q -> fetch_end server above now url path ef free d p = d p).
Proof.
  intros server above now url path ef free d q H.
  destruct (fetched_inv _ _ _ _ _ _ _ _ _ H) as (u & c & w & _ & S & Sv & R & _ & E).
  exists u, c, (checked_out w (gc_tree c)). split; [rewrite E; apply put_same|]. split; [exact Sv|]. split; [|split].
  - intros G. pose proof (checked_out_updated _ w G) as U. inversion S as [D c' S' |q' r u' O D U' ]; subst.
    + rewrite Sv in S'. injection S' as <-. unfold work_at. rewrite D.
      pose proof (checked_out_updated _ [] G) as (_ & _ & U0). destruct U as (U1 & U2 & U3).
      split; [exact U1|]. split; [exact U2|]. intros p Hp. rewrite U3 by exact Hp. now apply U0.
    + unfold work_at. rewrite D. exact U.
  - inversion S as [D c' S' |q' r u' O D U' ]; subst; [now left|].
    unfold opened in O. destruct (discovered above d path) as [q2|].
    + destruct (origin_is url d q2) eqn:Or.
      * injection O as ->. unfold origin_is in Or. rewrite D, U' in Or. apply String.eqb_eq in Or. auto.
      * destruct (d path) as [|r'|] eqn:P; try discriminate. injection O as ->. rewrite D in P. injection P as <-. right. eauto.
    + destruct (d path) as [|r'|] eqn:P; try discriminate. injection O as ->. rewrite D in P. injection P as <-. right. eauto.
  - intros p Hp. rewrite E. now apply put_other.
Qed.
Print Assumptions C80_what_is_fetched.

(** A fetch to a path where there is nothing gives exactly the files of the commit the URL serves. *)
Theorem C80_first_fetch : forall server above now url path ef free d q,
  d path = Nothing -> snd (fetch server above now url path ef free d) = Fetched q ->
  exists c w', q = path /\ server url = Some c /\
    fetch_end server above now url path ef free d path = Repo (mkClone (Some url) (Some c) w') /\
    (good_tree (gc_tree c) -> forall p t, content p w' = Some t <-> In (p, t) (gc_tree c)).
Proof.
  intros server above now url path ef free d q D H.
  destruct (fetched_inv _ _ _ _ _ _ _ _ _ H) as (u & c & w & _ & S & Sv & R & _ & E).
  inversion S as [D' c' S' |q' r u' O D' U' ]; subst; [|rewrite opened_nothing in O by exact D; discriminate].
  rewrite Sv in S'. injection S' as <-. exists c, (checked_out (checked_out [] (gc_tree c)) (gc_tree c)).
  split; [reflexivity|]. split; [exact Sv|]. split; [rewrite E; apply put_same|].
  intros G p t. split.
  - intros K. apply content_in in K. apply checked_out_origin in K as [K|K]; [exact K|].
    apply checked_out_origin in K as [K|[]]. exact K.
  - apply (proj1 (checked_out_updated _ _ G)).
Qed.
Print Assumptions C80_first_fetch.

(** Freshness: with the check, the disk goes through the same states, and the fetch succeeds exactly if it would without the
    check and the commit HEAD then leads to is less than ninety days old. *)
Theorem C80_fresh_exactly : forall server above now url path free d q,
  fst (fetch server above now url path true free d) = fst (fetch server above now url path false free d) /\
  (snd (fetch server above now url path true free d) = Fetched q <->
   snd (fetch server above now url path false free d) = Fetched q /\
   exists r c, fetch_end server above now url path false free d q = Repo r /\ k_head r = Some c /\ younger now c).
Proof.
  intros server above now url path free d q.
  assert (Same : (fst (fetch server above now url path true free d) = fst (fetch server above now url path false free d)) /\
    (forall x, snd (fetch server above now url path true free d) = Fetched x -> snd (fetch server above now url path false free d) = Fetched x) /\
    (snd (fetch server above now url path false free d) = Fetched q -> 
      (forall r c, fetch_end server above now url path false free d q = Repo r -> k_head r = Some c -> younger now c) -> snd (fetch server above now url path true free d) = Fetched q)).
  { unfold fetch_end, fetch. destruct (starts_with "https://" url); cbn [negb]; [|repeat split; auto; discriminate].
    destruct (has_parent path); cbn [negb]; [|repeat split; auto; discriminate].
    destruct free; cbn [negb]; [|repeat split; auto; discriminate].
    assert (Fin : forall dd q0 pre c u w, last pre dd = done dd q0 u c w ->
       fst (then_finish now true q0 dd pre) = fst (then_finish now false q0 dd pre) /\
       (forall x, snd (then_finish now true q0 dd pre) = Fetched x -> snd (then_finish now false q0 dd pre) = Fetched x) /\
       (snd (then_finish now false q0 dd pre) = Fetched q -> 
        (forall r c, last (fst (then_finish now false q0 dd pre)) dd q = Repo r -> k_head r = Some c -> younger now c) -> snd (then_finish now true q0 dd pre) = Fetched q)).
    { intros dd q0 pre c u w L. unfold then_finish. rewrite L, !finish_done.
      destruct (from_repo_head (mkClone (Some u) (Some c) w)) as [x| |] eqn:X; cbn [fst snd]; try (repeat split; auto; discriminate).
      split; [reflexivity|]. cbn [andb]. split; [intros y; destruct (negb (is_fresh now c)); [discriminate|auto]|].
      intros H K. injection H as ->. destruct (is_fresh now c) eqn:Fr; [reflexivity|].
      assert (Y : younger now c).
      { rewrite last_app, L in K. eapply K; [|]; [rewrite end_state; apply put_same|reflexivity]. }
      apply is_fresh_iff in Y. rewrite Y in Fr. discriminate. }
    destruct (opened above url path d) as [q0|].
    - destruct (d q0) as [|r0|]; try (repeat split; auto; discriminate).
      destruct (k_origin r0) as [u|]; [|repeat split; auto; discriminate].
      destruct (server u) as [c|]; [|repeat split; auto; discriminate].
      apply (Fin d q0 _ c u (k_work r0)). reflexivity.
    - destruct (d path); try (repeat split; auto; discriminate).
      destruct (server url) as [c|]; [|repeat split; auto; discriminate].
      apply (Fin d path _ c url (checked_out [] (gc_tree c))).
      unfold clone_states. rewrite !last_cons. unfold done.
      rewrite (last_map (fun w => put d path (Repo (mkClone (Some url) (Some c) w)))). now rewrite checkout_last. }
  destruct Same as (S1 & S2 & S3). split; [exact S1|]. split.
  - intros H. split; [auto|]. destruct (fetched_inv _ _ _ _ _ _ _ _ _ H) as (u & c & w & _ & S & Sv & R & Y & E).
    exists (mkClone (Some u) (Some c) (checked_out w (gc_tree c))), c.
    split; [|split; [reflexivity|auto]]. unfold fetch_end. rewrite <- S1. unfold fetch_end in E. rewrite E. apply put_same.
  - intros [H (r & c & E & K & Y)]. apply S3; [exact H|]. intros r' c' E' K'. rewrite E in E'. injection E' as <-. rewrite K in K'. injection K' as <-. exact Y.
Qed.
Print Assumptions C80_fresh_exactly.

(** ** Histories *)
Definition from_served (served : list gcommit) (w : work) : Prop :=
  forall p t, In (p, t) w -> exists c, In c served /\ In (p, t) (gc_tree c).
Lemma from_served_more l m w : (forall c, In c l -> In c m) -> from_served l w -> from_served m w.
Proof. intros H F p t K. destruct (F p t K) as (c & A & B). eauto. Qed.
Definition inv (url path : string) (served : list gcommit) (d : disk) : Prop :=
  d path = Nothing \/ d path = Repo (mkClone None None []) \/
  exists h w, d path = Repo (mkClone (Some url) h w) /\ (forall c, h = Some c -> In c served) /\ from_served served w.
Lemma opened_at above url path d r : d path = Repo r -> opened above url path d = Some path.
Proof. intros E. unfold opened, discovered. rewrite E. destruct (origin_is url d path); reflexivity. Qed.
Lemma step_inv server above now url path ef free served d d' :
  inv url path served d -> fetch_crash server above now url path ef free d d' ->
  inv url path (match server url with Some c => c :: served | None => served end) d'.
Proof.
  intros I [->|H].
  - destruct I as [I|[I|(h & w & I & A & B)]]; [now left|right; now left|right; right]. exists h, w. split; [exact I|].
    destruct (server url) as [c|]; [|auto]. split; [intros c' K; right; auto|]. eapply from_served_more; [|exact B]. intros; now right.
  - destruct (fetch_cases server above now url path ef free d) as [[F _]|(q & u & c & w & pre & A & S & Sv & L & Lo & E & X)]; [rewrite F in H; destruct H|].
    rewrite E in H. cbn [fst] in H.
    assert (Q : q = path /\ u = url /\ from_served (c :: served) w).
    { inversion S as [D c' S' |q' r u' O D U' ]; subst.
      - rewrite Sv in S'. injection S' as <-. split; [reflexivity|]. split; [reflexivity|]. intros p t K. exists c. split; [now left|].
        apply checked_out_origin in K as [K|[]]. exact K.
      - destruct I as [I|[I|(h & w & I & A' & B)]].
        + rewrite opened_nothing in O by exact I. discriminate.
        + rewrite (opened_at _ _ _ _ _ I) in O. injection O as <-. rewrite D in I. injection I as ->. discriminate.
        + rewrite (opened_at _ _ _ _ _ I) in O. injection O as <-. rewrite D in I. injection I as ->. cbn in U'. injection U' as <-.
          split; [reflexivity|]. split; [reflexivity|]. cbn. eapply from_served_more; [|exact B]. intros; now right. }
    destruct Q as (-> & -> & Fw). rewrite Sv.
    assert (Inh : forall c0, Some c = Some c0 -> In c0 (c :: served)) by (intros c0 K; injection K as <-; now left).
    apply in_app_or in H as [H|H].
    + destruct (X _ H) as [Ex|(D & _ & [K|(h & w' & K & Hh & Hw)])]; [rewrite Ex| |].
      * right. right. exists (Some c), w. split; [apply put_same|]. auto.
      * right. now left.
      * right. right. exists h, w'. split; [exact K|]. split; [intros c0 ->; destruct Hh as [Hh|Hh]; [discriminate|auto]|].
        intros p t J. exists c. split; [now left|auto].
    + rewrite L, finish_done in H. destruct (from_repo_head (mkClone (Some url) (Some c) w)) as [x| |] eqn:Y; try destruct H.
      apply in_map_iff in H. destruct H as (w' & Ew & Hw). rewrite <- Ew. right. right. exists (Some c), w'. split; [apply put_same|]. split; [exact Inh|].
      intros p t J. destruct (checkout_origin _ _ _ _ _ Hw J) as [Z|Z]; [exists c; split; [now left|exact Z]|]. apply Fw. exact Z.
Qed.
Lemma runs_inv above url path served d : runs above url path served d -> inv url path served d.
Proof. induction 1 as [d D|served d server now fresh free d' R IH C]; [now left|]. eapply step_inv; eassumption. Qed.

(** However the runs went: what is in the working tree has been served by the URL under that very path, and HEAD is a commit
    that has been served. *)
Theorem C80_only_served_content : forall above url path served d, runs above url path served d ->
  (forall p t, In (p, t) (work_at d path) -> exists c, In c served /\ In (p, t) (gc_tree c)) /\
  (forall r c, d path = Repo r -> k_head r = Some c -> In c served).
Proof.
  intros above url path served d R. apply runs_inv in R as [I|[I|(h & w & I & A & B)]]; unfold work_at; rewrite I.
  - split; [intros ? ? []|discriminate].
  - split; [intros ? ? []|]. intros r c K. injection K as <-. discriminate.
  - split; [exact B|]. intros r c K. injection K as <-. exact (A c).
Qed.
Print Assumptions C80_only_served_content.

(** After any such history, unless it was interrupted before the clone had its remote configured, a further fetch succeeds if
    the server answers with a readable commit that is not stale, and then every file of that commit is there and HEAD is that
    commit; if no served commit has a path the last one lacks, the working tree is exactly its tree. *)
Theorem C80_next_fetch : forall above url path served d server now ef c,
  runs above url path served d -> d path <> Repo (mkClone None None []) ->
  has_prefix "https://" url -> path <> "" -> path <> "/" ->
  server url = Some c -> readable c -> (ef = true -> younger now c) -> good_tree (gc_tree c) ->
  snd (fetch server above now url path ef true d) = Fetched path /\
  exists w, fetch_end server above now url path ef true d path = Repo (mkClone (Some url) (Some c) w) /\
    updated (work_at d path) (gc_tree c) w /\
    ((forall c' p, In c' served -> In p (map fst (gc_tree c')) -> In p (map fst (gc_tree c))) ->
     forall p t, content p w = Some t <-> In (p, t) (gc_tree c)).
Proof.
  intros above url path served d server now ef c R Ns H1 H2 H3 Sv Rd Fr G.
  assert (Inv := runs_inv _ _ _ _ _ R).
  assert (Succ : snd (fetch server above now url path ef true d) = Fetched path).
  { assert (Hp : has_parent path = true).
    { unfold has_parent. destruct (String.eqb_spec path ""); [contradiction|]. destruct (String.eqb_spec path "/"); [contradiction|reflexivity]. }
    apply starts_https in H1.
    assert (Fin : forall pre w, last pre d = done d path url c w -> snd (then_finish now ef path d pre) = Fetched path).
    { intros pre w L. unfold then_finish. destruct (last_done_ext now ef d path url c w pre L Rd) as [F1 F2].
      destruct (finish now ef path (last pre d)) as [aft res]. cbn [fst snd] in *. rewrite F2.
      destruct ef; [|reflexivity]. apply is_fresh_iff in Fr; [|reflexivity]. now rewrite Fr. }
    unfold fetch. rewrite H1, Hp. cbn [negb].
    destruct Inv as [I|[I|(h & w & I & A & B)]]; [|contradiction|].
    - rewrite (opened_nothing _ _ _ _ I), I, Sv. apply (Fin _ (checked_out [] (gc_tree c))).
      unfold clone_states. rewrite !last_cons. unfold done.
      rewrite (last_map (fun w => put d path (Repo (mkClone (Some url) (Some c) w)))). now rewrite checkout_last.
    - rewrite (opened_at _ _ _ _ _ I), I. cbn [k_origin k_work]. rewrite Sv. apply (Fin _ w). reflexivity. }
  split; [exact Succ|].
  destruct (C80_what_is_fetched _ _ _ _ _ _ _ _ _ Succ) as (u & c' & w & E & S & U & O & _).
  assert (u = url).
  { destruct O as [->|(_ & r & D & K)]; [reflexivity|]. destruct Inv as [I|[I|(h & w0 & I & A & B)]]; rewrite D in I; try discriminate.
    - injection I as ->. discriminate.
    - injection I as ->. cbn in K. injection K as <-. reflexivity. }
  subst u. rewrite Sv in S. injection S as <-. exists w. split; [exact E|]. split; [exact (U G)|].
  intros Sub p t. destruct (U G) as (U1 & U2 & U3). split; [|apply U1].
  intros K. destruct (in_dec (list_eq_dec string_dec) p (map fst (gc_tree c))) as [X|X].
  - apply in_map_iff in X as ([p' t'] & Ep & X). cbn in Ep. subst p'. rewrite (U1 _ _ X) in K. injection K as <-. exact X.
  - destruct (existsb (fun q => conflict q p) (map fst (gc_tree c))) eqn:Y.
    + rewrite U2 in K; [discriminate|exact X|]. apply existsb_exists in Y as (q & H4 & H5). exists q. split; [exact H4|]. now apply conflict_iff.
    + assert (N : ~ in_the_way (gc_tree c) p).
      { intros (q & H4 & H5). apply not_true_iff_false in Y. apply Y. apply existsb_exists. exists q. split; [exact H4|]. now apply conflict_iff. }
      rewrite (U3 _ N) in K. apply content_in in K.
      destruct (proj1 (C80_only_served_content _ _ _ _ _ R) _ _ K) as (c' & I1 & I2). elim X. apply (Sub c'); [exact I1|]. apply in_map_iff. exists (p, t). auto.
Qed.
Print Assumptions C80_next_fetch.
