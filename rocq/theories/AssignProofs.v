(** Proofs about the id assigner. *)
From Coq Require Import List NArith Ascii String Bool Arith Lia.
From Verif Require Import Base StrLib IdModel DbModel PartsModel AssignModel AssignSpec.
Import ListNotations.
Local Open Scope string_scope.
Local Open Scope N_scope.
Local Infix "++" := String.append (right associativity, at level 60).

(** ** New ids *)
Lemma zeros_digits k : str_forall is_dig (zeros k) = true.
Proof. induction k; [reflexivity|exact IHk]. Qed.
Lemma zeros_val k s : dec_val 0 (zeros k ++ s) = dec_val 0 s.
Proof. induction k; [reflexivity|]. cbn [zeros append dec_val]. exact IHk. Qed.
Lemma pad4_digits n : str_forall is_dig (pad4 n) = true.
Proof. unfold pad4. rewrite str_forall_app, zeros_digits, print_dec_digits. reflexivity. Qed.
Lemma pad4_val n : dec_val 0 (pad4 n) = Some n.
Proof. unfold pad4. rewrite zeros_val. apply print_dec_val. Qed.
Lemma pad4_nonempty n : pad4 n <> "".
Proof.
  intros E. pose proof (print_dec_nonempty n) as H. apply H. unfold pad4 in E.
  destruct (zeros (4 - String.length (print_dec n))); [exact E|discriminate E].
Qed.
Lemma digits_parse max s n : str_forall is_dig s = true -> s <> "" -> dec_val 0 s = Some n -> n <= max -> parse_uint max s = Some n.
Proof.
  intros D Ne V L. unfold parse_uint, parse_dec. destruct s as [|a r]; [congruence|].
  assert (a <> "+"%char) as Na. { intros ->. discriminate D. }
  destruct (Ascii.eqb_spec a "+"%char) as [E|_]; [congruence|].
  destruct a as [[] [] [] [] [] [] [] []]; try (exfalso; apply Na; reflexivity);
    cbv beta iota; rewrite V; apply N.leb_le in L; rewrite L; reflexivity.
Qed.
Lemma parse_pad4 n : n <= u32_max -> parse_u32 (pad4 n) = Some n.
Proof. apply digits_parse; [apply pad4_digits|apply pad4_nonempty|apply pad4_val]. Qed.
Lemma digits_nodash s : str_forall is_dig s = true -> has_char "-" s = false.
Proof. intros D. eapply str_forall_has; [exact D|reflexivity]. Qed.
Lemma split_new_id y n : split_on "-" (new_id y n) = ["RUSTSEC"; print_dec y; pad4 n].
Proof.
  unfold new_id. change ("RUSTSEC-" ++ print_dec y ++ "-" ++ pad4 n) with ("RUSTSEC" ++ String "-" (print_dec y ++ String "-" (pad4 n))).
  rewrite split_on_app by reflexivity. rewrite split_on_app by (apply digits_nodash, print_dec_digits).
  rewrite split_on_nochar by (apply digits_nodash, pad4_digits). reflexivity.
Qed.
Lemma new_id_inj y n y' n' : new_id y n = new_id y' n' -> y = y' /\ n = n'.
Proof.
  intros E. apply (f_equal (split_on "-")) in E. rewrite !split_new_id in E. injection E as E1 E2.
  apply (f_equal (dec_val 0)) in E1, E2. rewrite !print_dec_val in E1. rewrite !pad4_val in E2.
  injection E1 as ->. injection E2 as ->. auto.
Qed.
Lemma new_id_not_placeholder y n : (y <> 0) -> new_id y n <> placeholder.
Proof.
  intros H E. apply (f_equal (split_on "-")) in E. rewrite split_new_id in E. vm_compute (split_on "-" placeholder) in E.
  injection E as E1 _. apply (f_equal (dec_val 0)) in E1. rewrite print_dec_val in E1.
  vm_compute (dec_val 0 "0000") in E1. injection E1 as ->. congruence.
Qed.
Lemma detect_new_id y n : detect (new_id y n) = KRustSec.
Proof. unfold detect, new_id. unfold starts_with. rewrite strip_prefix_app. reflexivity. Qed.
Lemma number_new_id y n : y <> 0 -> n <= u32_max -> numerical_part (mkId KRustSec (Some y) (new_id y n)) = Some n.
Proof.
  intros Hy Hn. unfold numerical_part, is_placeholder. cbn [id_string].
  destruct (String.eqb_spec (new_id y n) placeholder) as [E|_]; [exfalso; exact (new_id_not_placeholder y n Hy E)|].
  rewrite split_new_id. cbn [rev app]. apply parse_pad4. exact Hn.
Qed.
Lemma year_new_id y n z : parse_year (new_id y n) = Ok z -> y <= u32_max -> z = y.
Proof.
  unfold parse_year. rewrite split_new_id. intros H Hy.
  unfold parse_u32 in H. rewrite (parse_uint_print u32_max y Hy) in H.
  destruct ((YEAR_MIN <=? y) && (y <=? YEAR_MAX)); [|discriminate H].
  destruct (parse_uint u32_max (pad4 n)); [injection H as <-; reflexivity|discriminate H].
Qed.
Lemma new_id_parses y n : 2000 <= y <= 2100 -> n <= u32_max ->
  id_from_str (new_id y n) = Ok (mkId KRustSec (Some y) (new_id y n)).
Proof.
  intros Hy Hn. unfold id_from_str.
  destruct (String.eqb_spec (new_id y n) placeholder) as [E|_].
  { exfalso. apply (new_id_not_placeholder y n) in E; [exact E|lia]. }
  rewrite detect_new_id. unfold parse_year. rewrite split_new_id.
  unfold parse_u32 at 1. rewrite (parse_uint_print u32_max y) by (unfold u32_max; lia).
  rewrite (parse_pad4 n Hn).
  replace ((YEAR_MIN <=? y) && (y <=? YEAR_MAX)) with true; [reflexivity|].
  symmetry. apply andb_true_iff. unfold YEAR_MAX, YEAR_MIN. rewrite !N.leb_le. lia.
Qed.
(** A new id, read by [Id::from_str], has kind RUSTSEC, its year and its number. *)
Lemma same_string_as_new_id i s y n : id_from_str s = Ok i -> id_string i = new_id y n -> y <> 0 -> y <= u32_max ->
  n <= u32_max -> id_kind_of i = KRustSec /\ id_year i = Some y /\ numerical_part i = Some n.
Proof.
  intros H E Hy Ly Ln. unfold id_from_str in H.
  destruct (String.eqb_spec s placeholder) as [Es|Es].
  { injection H as <-. cbn in E. symmetry in E. exfalso. exact (new_id_not_placeholder y n Hy E). }
  assert (S : s = new_id y n).
  { destruct (detect s); try (destruct (parse_year s); [|discriminate..]); cbn [obind] in H; injection H as <-; exact E. }
  subst s. rewrite detect_new_id in H. destruct (parse_year (new_id y n)) as [z| |] eqn:P; try discriminate.
  apply year_new_id in P; [|exact Ly]. subst z. cbn [obind] in H. injection H as <-.
  split; [reflexivity|]. split; [reflexivity|]. apply number_new_id; assumption.
Qed.

(** ** Highest numbers *)
Definition hi (m : ymap) (y : N) : N := match yget y m with Some n => n | None => 0 end.
Lemma hi_put y n m z : hi (yput y n m) z = if y =? z then n else hi m z.
Proof. unfold hi, yput. cbn [yget]. destruct (y =? z); reflexivity. Qed.

Lemma highest_spec : forall advs m m', highest advs m = Ok m' -> forall y,
  hi m y <= hi m' y /\
  (forall a n, In a advs -> dated y a -> numbered a n -> n <= hi m' y) /\
  (hi m' y = hi m y \/ exists a, In a advs /\ dated y a /\ numbered a (hi m' y)).
Proof.
  induction advs as [|a r IH]; cbn [highest]; intros m m' H y.
  { injection H as <-. split; [lia|]. split; [intros ? ? []|left; reflexivity]. }
  destruct (date_year (a_date a)) as [z| |] eqn:Dz; cbn [obind] in H; try discriminate H.
  destruct (id_kind_of (a_id a)) eqn:K.
  1:{ destruct (numerical_part (a_id a)) as [k|] eqn:Nk; [|discriminate H].
      assert (Hcase : exists m1, highest r m1 = Ok m' /\ hi m y <= hi m1 y /\ (z = y -> k <= hi m1 y) /\
                 (hi m1 y = hi m y \/ z = y /\ hi m1 y = k)).
      { destruct (yget z m) as [o|] eqn:G.
        - destruct (N.ltb_spec o k) as [L|L].
          + exists (yput z k m). split; [exact H|]. rewrite hi_put. destruct (N.eqb_spec z y) as [->|Ne].
            * unfold hi at 1. rewrite G. split; [lia|]. split; [lia|]. right. auto.
            * split; [lia|]. split; [congruence|]. left; reflexivity.
          + exists m. split; [exact H|]. split; [lia|]. split; [|left; reflexivity]. intros <-. unfold hi. rewrite G. exact L.
        - exists (yput z k m). split; [exact H|]. rewrite hi_put. destruct (N.eqb_spec z y) as [->|Ne].
          + unfold hi at 1. rewrite G. split; [lia|]. split; [lia|]. right. auto.
          + split; [lia|]. split; [congruence|]. left; reflexivity. }
      destruct Hcase as (m1 & H1 & L1 & L2 & L3). destruct (IH m1 m' H1 y) as (I1 & I2 & I3).
      split; [lia|]. split.
      - intros b n [<-|Hb] Db Nb; [|eapply I2; eassumption]. unfold dated in Db. rewrite Dz in Db. injection Db as <-.
        destruct Nb as [_ Nb]. rewrite Nk in Nb. injection Nb as <-. specialize (L2 eq_refl). lia.
      - destruct I3 as [I3|(b & Hb & Db & Nb)]; [|right; exists b; split; [right|]; auto].
        destruct L3 as [L3|(-> & L3)]; [left; congruence|]. right. exists a. split; [left; reflexivity|].
        split; [exact Dz|]. split; [exact K|]. rewrite Nk. congruence. }
  all: destruct (IH m m' H y) as (I1 & I2 & I3); split; [exact I1|]; split;
    [intros b n [<-|Hb] Db Nb; [destruct Nb as [Nb _]; congruence|eapply I2; eassumption]
    |destruct I3 as [I3|(b & Hb & Db & Nb)]; [left; exact I3|right; exists b; split; [right|]; auto]].
Qed.
Lemma highest_top advs m : highest advs [] = Ok m -> forall y, top_number advs y (hi m y).
Proof.
  intros H y. destruct (highest_spec advs [] m H y) as (_ & A & B). split; [exact A|].
  destruct B as [B|B]; [left; exact B|right; exact B].
Qed.

(** ** What a run does *)
(** One handled draft: its place and text, the year and number given, and whether the draft was deleted (the last step). *)
Record item := mkItem { it_path : path; it_text : string; it_year : N; it_num : N; it_done : bool }.
Definition it_id (i : item) : string := new_id (it_year i) (it_num i).
Definition it_target (i : item) : path := beside (it_path i) (it_id i).
Definition block (i : item) : list op :=
  (Create (it_target i)
   :: map (fun l => Append (it_target i) (rewrite_line (it_id i) l ++ String nl "")) (file_lines (it_text i))
   ++ if it_done i then [Delete (it_path i)] else [])%list.
Fixpoint numbering (h : N -> N) (pl : list item) : Prop :=
  match pl with
  | [] => True
  | i :: r => it_num i = h (it_year i) + 1 /\ numbering (fun y => if it_year i =? y then it_num i else h y) r
  end.
Definition all_done (pl : list item) : Prop := Forall (fun i => it_done i = true) pl.

Lemma numbering_ext pl : forall h h', (forall y, h y = h' y) -> numbering h pl -> numbering h' pl.
Proof.
  induction pl as [|i r IH]; intros h h' E; cbn; [auto|]. intros [A B]. rewrite <- E. split; [exact A|].
  eapply IH; [|exact B]. intros y. cbn. rewrite E. reflexivity.
Qed.
Lemma numbering_above pl : forall h, numbering h pl -> forall i, In i pl -> h (it_year i) < it_num i.
Proof.
  induction pl as [|j r IH]; intros h H i Hi; [destruct Hi|]. destruct H as [E H]. destruct Hi as [->|Hi]; [lia|].
  specialize (IH _ H i Hi). cbn in IH. destruct (N.eqb_spec (it_year j) (it_year i)) as [Ey|_]; [|exact IH].
  rewrite <- Ey. lia.
Qed.
Lemma numbering_ids pl : forall h, numbering h pl -> NoDup (map it_id pl).
Proof.
  induction pl as [|j r IH]; intros h H; cbn [map]; [constructor|]. destruct H as [E H]. constructor; [|eapply IH; exact H].
  rewrite in_map_iff. intros (i & Ei & Hi). pose proof (numbering_above r _ H i Hi) as L. cbn in L.
  unfold it_id in Ei. apply new_id_inj in Ei as [Ey En]. rewrite Ey, N.eqb_refl, En in L. lia.
Qed.
Fixpoint same_year (y : N) (pl : list item) : N :=
  match pl with [] => 0 | i :: r => (if it_year i =? y then 1 else 0) + same_year y r end.
Lemma numbering_nth pl : forall h k i, numbering h pl -> nth_error pl k = Some i ->
  it_num i = h (it_year i) + 1 + same_year (it_year i) (firstn k pl).
Proof.
  induction pl as [|j r IH]; intros h k i H Hk; [destruct k; discriminate|]. destruct H as [E H]. destruct k as [|k].
  - injection Hk as ->. cbn [firstn same_year]. lia.
  - cbn [nth_error] in Hk. rewrite (IH _ k i H Hk). cbn [firstn same_year]. destruct (N.eqb_spec (it_year j) (it_year i)) as [Ey|_]; [|lia].
    rewrite <- Ey. lia.
Qed.

Section Run.
  Context (toml : string -> option advisory) (checks : bool).
  Notation draft_year := (draft_year toml).
  Notation step := (assign_file toml checks).

  Definition fl : Type := string * string * rfile.
  Definition step3 (s : astate) (x : fl) : astate * outcome unit := step (fst (fst x)) (snd (fst x)) s (snd x).
  Definition flat (coll : string) (es : list rentry) : list fl :=
    flat_map (fun e => match re_files e with None => [] | Some fs => map (fun f => ((coll, re_name e), f)) fs end) es.
  Definition fl_text (x : fl) : path * string := ((fst x, rf_name (snd x)), rf_text (snd x)).

  Lemma flat_texts coll es : map fl_text (flat coll es) = flat_map (entry_texts coll) es.
  Proof.
    induction es as [|e r IH]; [reflexivity|]. cbn [flat flat_map]. rewrite map_app. f_equal; [|exact IH].
    unfold entry_texts. destruct (re_files e); [|reflexivity]. rewrite map_map. reflexivity.
  Qed.
  Lemma run_app l1 : forall s l2, run_list step3 s (l1 ++ l2)%list =
    match run_list step3 s l1 with (s', Ok tt) => run_list step3 s' l2 | x => x end.
  Proof.
    induction l1 as [|x r IH]; intros s l2; cbn [run_list app]; [reflexivity|].
    destruct (step3 s x) as [s' [[]| |]]; [apply IH|reflexivity..].
  Qed.
  Lemma run_files coll dir fs : forall s,
    run_list (step coll dir) s fs = run_list step3 s (map (fun f => ((coll, dir), f)) fs).
  Proof.
    induction fs as [|f r IH]; intros s; cbn [run_list map]; [reflexivity|]. unfold step3 at 1. cbn [fst snd].
    destruct (step coll dir s f) as [s' [[]| |]]; [apply IH|reflexivity..].
  Qed.
  Lemma run_entries coll es : forall s s' r, run_list (assign_entry toml checks coll) s es = (s', r) ->
    exists l1 l2, flat coll es = (l1 ++ l2)%list /\ exists r1, run_list step3 s l1 = (s', r1) /\ (r = Ok tt -> l2 = [] /\ r1 = Ok tt).
  Proof.
    induction es as [|e r IH]; intros s s' o H.
    { injection H as <- <-. exists [], []. split; [reflexivity|]. exists (Ok tt). auto. }
    cbn [run_list] in H. unfold assign_entry at 1 in H. cbn [flat flat_map].
    destruct (re_files e) as [fs|].
    - rewrite run_files in H. destruct (run_list step3 s (map (fun f => (coll, re_name e, f)) fs)) as [s1 [[]| |]] eqn:R.
      + destruct (IH _ _ _ H) as (l1 & l2 & E & r1 & R1 & Ok1). exists (map (fun f => ((coll, re_name e), f)) fs ++ l1)%list, l2.
        split; [rewrite <- app_assoc; f_equal; exact E|]. exists r1. rewrite run_app, R. auto.
      + injection H as <- <-. eexists _, _. split; [reflexivity|]. exists Err. split; [exact R|discriminate].
      + injection H as <- <-. eexists _, _. split; [reflexivity|]. exists Panic. split; [exact R|discriminate].
    - injection H as <- <-. exists [], (flat coll r). split; [reflexivity|exists (Ok tt); split; [reflexivity|discriminate]].
  Qed.

  Definition is_draft_fl (x : fl) : bool := is_draft_name (rf_name (snd x)).
  Definition from_item (x : fl) (i : item) : Prop :=
    it_path i = (fst x, rf_name (snd x)) /\ it_text i = rf_text (snd x) /\ draft_year (it_text i) = Ok (it_year i) /\
    it_num i <= u32_max /\
    (it_done i = true -> existsb is_placeholder_line (file_lines (it_text i)) = true).

  (** What the loop over the files does. *)
  Lemma run_plan l : forall s s' r, run_list step3 s l = (s', r) ->
    (forall y, hi (s_high s) y + N.of_nat (List.length l) <= u32_max) ->
    exists pl ds rest,
      filter is_draft_fl l = (ds ++ rest)%list /\ Forall2 from_item ds pl /\ numbering (hi (s_high s)) pl /\
      s_ops s' = (s_ops s ++ flat_map block pl)%list /\
      s_done s' = (s_done s ++ map (fun i => (it_id i, snd (fst (it_path i)))) (filter it_done pl))%list /\
      (all_done pl \/ exists pl0 i, pl = (pl0 ++ [i])%list /\ all_done pl0 /\ it_done i = false) /\
      (r = Ok tt -> rest = [] /\ all_done pl).
  Proof.
    induction l as [|x l IH]; intros s s' r H B.
    { injection H as <- <-. exists [], [], []. cbn. rewrite !app_nil_r. repeat apply conj; auto; try constructor; constructor. }
    cbn [run_list filter] in *. unfold step3 at 1 in H. unfold assign_file in H. unfold is_draft_fl at 1.
    destruct (is_draft_name (rf_name (snd x))) eqn:D; cbn [negb] in H.
    2:{ apply (IH s s' r H). intros y. specialize (B y). cbn [List.length] in B. rewrite Nat2N.inj_succ in B. lia. }
    assert (Stop : forall e, e <> Ok tt -> (s, e) = (s', r) ->
      exists pl ds rest, (x :: filter is_draft_fl l)%list = (ds ++ rest)%list /\ Forall2 from_item ds pl /\
        numbering (hi (s_high s)) pl /\
        s_ops s' = (s_ops s ++ flat_map block pl)%list /\
        s_done s' = (s_done s ++ map (fun i => (it_id i, snd (fst (it_path i)))) (filter it_done pl))%list /\
        (all_done pl \/ exists pl0 i, pl = (pl0 ++ [i])%list /\ all_done pl0 /\ it_done i = false) /\
        (r = Ok tt -> rest = [] /\ all_done pl)).
    { intros e Ne E. injection E as <- <-. exists [], [], (x :: filter is_draft_fl l)%list. cbn. rewrite !app_nil_r.
      repeat apply conj; auto; try constructor; try constructor; congruence. }
    destruct (AssignModel.draft_year toml (rf_text (snd x))) as [y| |] eqn:Y; [|apply (Stop Err); [discriminate|exact H]|apply (Stop Panic); [discriminate|exact H]].
    pose proof (B y) as By. cbn [List.length] in By. rewrite Nat2N.inj_succ in By.
    assert (U : u32_succ checks (match yget y (s_high s) with Some n => n | None => 0 end) = Ok (hi (s_high s) y + 1)).
    { unfold u32_succ, hi. unfold hi in By. destruct (N.leb_spec ((match yget y (s_high s) with Some n => n | None => 0 end) + 1) u32_max) as [_|L]; [reflexivity|lia]. }
    rewrite U in H. clear U.
    set (n := hi (s_high s) y + 1) in *.
    destruct (existsb is_placeholder_line (file_lines (rf_text (snd x)))) eqn:Ph.
    - set (i := mkItem (fst x, rf_name (snd x)) (rf_text (snd x)) y n true).
      set (s1 := mkSt (yput y n (s_high s)) (s_ops s ++ block i)%list (s_done s ++ [(it_id i, snd (fst x))])%list).
      assert (H1 : run_list step3 s1 l = (s', r)).
      { rewrite <- H. unfold s1, block, it_target, beside, i. cbn [it_path it_text it_done it_id it_year it_num fst snd].
        destruct x as [[c d] f]. cbn [fst snd]. reflexivity. }
      destruct (IH s1 s' r H1) as (pl & ds & rest & E1 & F & Nm & Eo & Ed & Last & Okk).
      { intros z. cbn [s_high s1]. rewrite hi_put. specialize (B z). cbn [List.length] in B. rewrite Nat2N.inj_succ in B.
        destruct (N.eqb_spec y z) as [->|_]; unfold n; lia. }
      exists (i :: pl), (x :: ds), rest. cbn [app flat_map filter map it_done i numbering].
      split; [rewrite E1; reflexivity|]. split.
      { constructor; [|exact F]. unfold from_item, i. cbn. repeat apply conj; auto. unfold n. lia. }
      split.
      { split; [reflexivity|]. eapply numbering_ext; [|exact Nm]. intros z. cbn [s_high s1 it_year i it_num]. rewrite hi_put. reflexivity. }
      split; [rewrite Eo; unfold s1; cbn [s_ops]; rewrite <- app_assoc; reflexivity|].
      split; [rewrite Ed; unfold s1; cbn [s_done it_done i]; rewrite <- app_assoc; reflexivity|].
      split.
      + destruct Last as [A|(pl0 & j & -> & A & Nd)]; [left; constructor; [reflexivity|exact A]|].
        right. exists (i :: pl0), j. split; [reflexivity|]. split; [constructor; [reflexivity|exact A]|exact Nd].
      + intros R. destruct (Okk R) as [-> A]. split; [reflexivity|constructor; [reflexivity|exact A]].
    - injection H as <- <-. set (i := mkItem (fst x, rf_name (snd x)) (rf_text (snd x)) y n false).
      exists [i], [x], (filter is_draft_fl l). split; [reflexivity|]. split.
      { constructor; [|constructor]. unfold from_item, i. cbn. repeat apply conj; auto; [unfold n; lia|discriminate]. }
      split; [cbn; auto|]. split.
      { cbn [s_ops flat_map]. rewrite app_nil_r. f_equal. unfold block, it_target, beside, i. cbn [it_path it_text it_done it_id it_year it_num fst snd].
        rewrite app_nil_r. destruct x as [[c d] f]. reflexivity. }
      split; [cbn; rewrite app_nil_r; reflexivity|]. split; [|discriminate].
      right. exists [], i. repeat apply conj; auto. constructor.
  Qed.
End Run.

(** ** Effects on the file system *)
Lemma path_eqb_spec a b : reflect (a = b) (path_eqb a b).
Proof.
  destruct a as [[a1 a2] a3], b as [[b1 b2] b3]. unfold path_eqb. cbn [fst snd].
  destruct (String.eqb_spec a1 b1); [|constructor; congruence]. destruct (String.eqb_spec a2 b2); [|constructor; congruence].
  destruct (String.eqb_spec a3 b3); constructor; congruence.
Qed.
Lemma set_same m p x : set m p x p = x.
Proof. unfold set. destruct (path_eqb_spec p p); congruence. Qed.
Lemma set_other m p x k : p <> k -> set m p x k = m k.
Proof. unfold set. destruct (path_eqb_spec p k); congruence. Qed.
Lemma apply_app m a b : apply_ops m (a ++ b)%list = apply_ops (apply_ops m a) b.
Proof. unfold apply_ops. apply fold_left_app. Qed.
Definition touches (o : op) : path := match o with Create p => p | Append p _ => p | Delete p => p end.
Lemma apply_untouched l : forall m k, ~ In k (map touches l) -> apply_ops m l k = m k.
Proof.
  induction l as [|o r IH]; intros m k H; [reflexivity|]. cbn [apply_ops fold_left map] in *. change (fold_left apply_op r (apply_op m o)) with (apply_ops (apply_op m o) r).
  rewrite IH by (intros Hi; apply H; right; exact Hi).
  assert (N : touches o <> k) by (intros E; apply H; left; exact E).
  destruct o as [p|p s|p]; cbn [apply_op touches] in *; [apply set_other; exact N| |apply set_other; exact N].
  destruct (m p); [apply set_other; exact N|reflexivity].
Qed.
Fixpoint sconcat (l : list string) : string := match l with [] => "" | x :: r => x ++ sconcat r end.
Lemma appends p : forall ls m x, m p = Some x ->
  apply_ops m (map (fun s => Append p s) ls) p = Some (x ++ sconcat ls).
Proof.
  induction ls as [|s r IH]; intros m x H.
  - cbn. rewrite H, sapp_nil_r. reflexivity.
  - cbn [map apply_ops fold_left sconcat]. change (fold_left apply_op ?l ?m) with (apply_ops m l). cbn [apply_op]. rewrite H.
    rewrite (IH _ (x ++ s)); [rewrite sapp_assoc; reflexivity|apply set_same].
Qed.
Lemma with_id_eq sid text : with_id sid text = sconcat (map (fun l => rewrite_line sid l ++ String nl "") (file_lines text)).
Proof.
  unfold with_id. induction (file_lines text) as [|l r IH]; [reflexivity|]. cbn [fold_right map sconcat]. rewrite IH.
  unfold rewrite_line. rewrite sapp_assoc. reflexivity.
Qed.
Lemma draft_not_new y n : y <> 0 -> starts_with "RUSTSEC-0000-0000." (new_id y n ++ ".md") = false.
Proof.
  intros Hy. apply starts_with_false. intros (t & E).
  assert (S : split_on "-" (new_id y n ++ ".md") = ["RUSTSEC"; print_dec y; pad4 n ++ ".md"]).
  { unfold new_id. rewrite !sapp_assoc. cbn [append].
    change (split_on "-" ("RUSTSEC" ++ String "-" (print_dec y ++ String "-" (pad4 n ++ ".md"))) = ["RUSTSEC"; print_dec y; pad4 n ++ ".md"]).
    rewrite split_on_app by reflexivity. rewrite split_on_app by (apply digits_nodash, print_dec_digits).
    rewrite split_on_nochar; [reflexivity|]. rewrite has_char_app, (digits_nodash _ (pad4_digits n)). reflexivity. }
  rewrite E in S. change ("RUSTSEC-0000-0000." ++ t) with ("RUSTSEC" ++ String "-" ("0000" ++ String "-" ("0000." ++ t))) in S.
  rewrite split_on_app in S by reflexivity. rewrite split_on_app in S by reflexivity.
  injection S as S1 _. apply (f_equal (dec_val 0)) in S1. rewrite print_dec_val in S1.
  vm_compute (dec_val 0 "0000") in S1. injection S1 as <-. congruence.
Qed.

Definition good_item (i : item) : Prop := draft_path (it_path i) = true /\ it_year i <> 0.
Lemma target_not_draft i j : good_item i -> good_item j -> it_target i <> it_path j.
Proof.
  intros [_ Hy] [Hj _] E. unfold draft_path in Hj. rewrite <- E in Hj. cbn [it_target beside snd] in Hj.
  unfold it_id in Hj. rewrite draft_not_new in Hj by exact Hy. discriminate Hj.
Qed.
Lemma target_inj i j : it_target i = it_target j -> it_id i = it_id j.
Proof. unfold it_target, beside. intros E. apply (f_equal snd) in E. cbn [snd] in E. exact (sapp_inj_r _ _ _ E). Qed.

Lemma block_touches i k : In k (map touches (block i)) -> k = it_target i \/ k = it_path i /\ it_done i = true.
Proof.
  unfold block. cbn [map touches]. intros [<-|H]; [left; reflexivity|]. rewrite map_app, in_app_iff in H. destruct H as [H|H].
  - rewrite map_map in H. apply in_map_iff in H as (l & <- & _). left; reflexivity.
  - destruct (it_done i); [|destruct H]. cbn in H. destruct H as [<-|[]]. right; auto.
Qed.
Lemma writes_effect i m : apply_ops m (Create (it_target i)
   :: map (fun l => Append (it_target i) (rewrite_line (it_id i) l ++ String nl "")) (file_lines (it_text i)))%list (it_target i)
  = Some (with_id (it_id i) (it_text i)).
Proof.
  cbn [apply_ops fold_left]. change (fold_left apply_op ?l ?m) with (apply_ops m l). cbn [apply_op].
  rewrite <- (map_map (fun l => rewrite_line (it_id i) l ++ String nl "") (fun s => Append (it_target i) s)).
  rewrite (appends _ _ _ ""); [|apply set_same]. rewrite with_id_eq. reflexivity.
Qed.
Lemma block_target i m : good_item i -> apply_ops m (block i) (it_target i) = Some (with_id (it_id i) (it_text i)).
Proof.
  intros G. unfold block. rewrite app_comm_cons, apply_app. rewrite apply_untouched; [apply writes_effect|].
  destruct (it_done i); [|intros []]. cbn. intros [E|[]]. exact (target_not_draft i i G G (eq_sym E)).
Qed.
Lemma block_path i m : good_item i -> it_done i = true -> apply_ops m (block i) (it_path i) = None.
Proof.
  intros G D. unfold block. rewrite app_comm_cons, apply_app, D. cbn [apply_ops fold_left apply_op]. apply set_same.
Qed.

Lemma prefix_app {A} (pre post a b : list A) : (pre ++ post = a ++ b)%list ->
  (exists c, a = pre ++ c)%list \/ (exists c, pre = a ++ c /\ b = c ++ post)%list.
Proof.
  revert a. induction pre as [|x pre IH]; intros a E; [left; exists a; reflexivity|].
  destruct a as [|y a]; cbn in E; [right; exists (x :: pre); split; [reflexivity|symmetry; exact E]|].
  injection E as -> E. destruct (IH a E) as [(c & ->)|(c & -> & Eb)]; [left; exists c; reflexivity|right; exists c; split; [reflexivity|exact Eb]].
Qed.
(** Interrupted in the middle of a block. *)
Lemma block_prefix i m pre post : block i = (pre ++ post)%list -> good_item i ->
  apply_ops m pre (it_path i) = m (it_path i) \/ apply_ops m pre (it_target i) = Some (with_id (it_id i) (it_text i)).
Proof.
  intros E G. destruct post as [|o post].
  - rewrite app_nil_r in E. right. rewrite <- E. apply block_target. exact G.
  - left. apply apply_untouched. intros Hin.
    assert (P : forall k, In k (map touches pre) -> k = it_target i).
    { intros k Hk. unfold block in E. rewrite app_comm_cons in E. symmetry in E.
      assert (T : forall c, In c (map touches (Create (it_target i) :: map (fun l => Append (it_target i) (rewrite_line (it_id i) l ++ String nl "")) (file_lines (it_text i))))%list -> c = it_target i).
      { intros c [<-|Hc]; [reflexivity|]. rewrite map_map in Hc. apply in_map_iff in Hc as (l & <- & _). reflexivity. }
      destruct (prefix_app _ _ _ _ E) as [(c & Ec)|(c & -> & Eb)].
      - apply T. rewrite Ec, map_app, in_app_iff. left. exact Hk.
      - destruct (it_done i); [|destruct c; discriminate Eb]. destruct c as [|z c]; [|destruct c; discriminate Eb].
        rewrite app_nil_r in Hk. apply T. exact Hk. }
    apply P in Hin. exact (target_not_draft i i G G (eq_sym Hin)).
Qed.

Lemma plan_touches pl k : In k (map touches (flat_map block pl)) -> exists i, In i pl /\ (k = it_target i \/ k = it_path i /\ it_done i = true).
Proof.
  induction pl as [|i r IH]; cbn [flat_map]; [intros []|]. rewrite map_app, in_app_iff. intros [H|H].
  - apply block_touches in H. exists i. split; [left; reflexivity|exact H].
  - destruct (IH H) as (j & Hj & E). exists j. split; [right; exact Hj|exact E].
Qed.

Lemma plan_target pl : forall m i, Forall good_item pl -> NoDup (map it_id pl) -> In i pl ->
  apply_ops m (flat_map block pl) (it_target i) = Some (with_id (it_id i) (it_text i)).
Proof.
  induction pl as [|j r IH]; intros m i G ND Hi; [destruct Hi|]. inversion_clear G as [|? ? Gj Gr]. cbn [map] in ND. inversion_clear ND as [|? ? Nj Nr].
  cbn [flat_map]. rewrite apply_app. destruct Hi as [->|Hi]; [|apply IH; assumption].
  rewrite apply_untouched; [apply block_target; exact Gj|]. intros Hk. apply plan_touches in Hk as (k & Hk & [E|[E _]]).
  - apply target_inj in E. apply Nj. rewrite E. apply in_map. exact Hk.
  - rewrite Forall_forall in Gr. exact (target_not_draft i k Gj (Gr k Hk) E).
Qed.
Lemma plan_path pl : forall m i, Forall good_item pl -> NoDup (map it_path pl) -> In i pl -> it_done i = true ->
  apply_ops m (flat_map block pl) (it_path i) = None.
Proof.
  induction pl as [|j r IH]; intros m i G ND Hi D; [destruct Hi|]. inversion_clear G as [|? ? Gj Gr]. cbn [map] in ND. inversion_clear ND as [|? ? Nj Nr].
  cbn [flat_map]. rewrite apply_app. destruct Hi as [->|Hi]; [|apply IH; assumption].
  rewrite apply_untouched; [apply block_path; assumption|]. rewrite Forall_forall in Gr. intros Hk. apply plan_touches in Hk as (k & Hk & [E|[E _]]).
  - exact (target_not_draft k i (Gr k Hk) Gj (eq_sym E)).
  - apply Nj. rewrite E. apply in_map. exact Hk.
Qed.
(** At every point, a draft is as it was or its new file is complete. *)
Lemma plan_prefix pl : forall m pre post i, flat_map block pl = (pre ++ post)%list -> Forall good_item pl ->
  NoDup (map it_id pl) -> NoDup (map it_path pl) -> In i pl ->
  apply_ops m pre (it_path i) = m (it_path i) \/ apply_ops m pre (it_target i) = Some (with_id (it_id i) (it_text i)).
Proof.
  induction pl as [|j r IH]; intros m pre post i E G ND NP Hi; [destruct Hi|]. pose proof G as G0. inversion_clear G as [|? ? Gj Gr].
  cbn [map] in *. inversion_clear ND as [|? ? Nj Nr]. inversion_clear NP as [|? ? Pj Pr]. rewrite Forall_forall in Gr.
  cbn [flat_map] in E. symmetry in E. destruct (prefix_app _ _ _ _ E) as [(c & Ec)|(c & -> & Eb)].
  - destruct Hi as [->|Hi]; [exact (block_prefix i m pre c Ec Gj)|]. left. apply apply_untouched. intros Hk.
    assert (Hb : In (it_path i) (map touches (block j))) by (rewrite Ec, map_app, in_app_iff; left; exact Hk).
    apply block_touches in Hb as [E1|[E1 _]].
    + exact (target_not_draft j i Gj (Gr i Hi) (eq_sym E1)).
    + apply Pj. rewrite <- E1. apply in_map. exact Hi.
  - rewrite apply_app. assert (Sub : forall k, In k (map touches c) -> In k (map touches (flat_map block r))) by (intros k Hk; rewrite Eb, map_app, in_app_iff; left; exact Hk).
    destruct Hi as [->|Hi].
    + right. rewrite apply_untouched; [apply block_target; exact Gj|]. intros Hk. apply Sub, plan_touches in Hk as (k & Hk & [E1|[E1 _]]).
      * apply target_inj in E1. apply Nj. rewrite E1. apply in_map. exact Hk.
      * exact (target_not_draft i k Gj (Gr k Hk) E1).
    + destruct (IH (apply_ops m (block j)) c post i Eb) as [A|A]; auto; [apply Forall_forall; exact Gr|]. left. rewrite A. apply apply_untouched. intros Hb.
      apply block_touches in Hb as [E1|[E1 _]].
      * exact (target_not_draft j i Gj (Gr i Hi) (eq_sym E1)).
      * apply Pj. rewrite <- E1. apply in_map. exact Hi.
Qed.

(** ** The whole run *)
Section Whole.
  Context (toml : string -> option advisory) (title description : advisory -> string)
          (with_text : advisory -> string -> string -> advisory) (checks : bool).
  Notation fs_of := (fs_of toml title description with_text).
  Notation assign_ids := (assign_ids toml title description with_text checks).
  Notation draft_year := (draft_year toml).

  (** Enough numbers are left. *)
  Definition room (t : rtree) (db : database) : Prop :=
    forall n, n = 0 \/ (exists a, In a (db_iter db) /\ numbered a n) -> n + N.of_nat (List.length (texts t)) <= u32_max.
  (** The dates of the drafts are in the supported range. *)
  Definition drafts_dated (t : rtree) : Prop :=
    forall d y, In d (drafts t) -> draft_year (snd d) = Ok y -> 2000 <= y <= 2100.

  Definition flat_all (t : rtree) : list fl :=
    (match rt_crates t with None => [] | Some es => flat "crates" es end
     ++ match rt_rust t with None => [] | Some es => flat "rust" es end)%list.
  Lemma flat_all_texts t : map fl_text (flat_all t) = texts t.
  Proof.
    unfold flat_all, texts, collection_texts. rewrite map_app. f_equal; [destruct (rt_crates t)|destruct (rt_rust t)];
      try reflexivity; apply flat_texts.
  Qed.
  Lemma drafts_fl l : map fl_text (filter is_draft_fl l) = filter (fun x => draft_path (fst x)) (map fl_text l).
  Proof.
    induction l as [|x r IH]; [reflexivity|]. cbn [filter map]. unfold is_draft_fl at 1, draft_path at 1, is_draft_name. cbn [fl_text fst snd].
    destruct (starts_with "RUSTSEC-0000-0000." (rf_name (snd x))); cbn [map]; rewrite IH; reflexivity.
  Qed.

  Lemma run_all g t s r : assign_ids g t = (s, r) ->
    (s = mkSt [] [] [] /\ forall x, r <> Ok x) \/
    exists db m l1 l2 r1, db_open (fs_of t) = Ok db /\ db_iter db <> [] /\ highest (db_iter db) [] = Ok m /\
      flat_all t = (l1 ++ l2)%list /\ run_list (step3 toml checks) (mkSt m [] []) l1 = (s, r1) /\
      (forall x, r = Ok x -> l2 = [] /\ r1 = Ok tt) /\
      (forall x, r = Ok x -> g = false -> x = None) /\
      (forall x, r = Ok x -> g = true -> exists y, x = Some y /\ make_title (map (fun d => fst d ++ " to " ++ snd d) (s_done s)) = Ok y).
  Proof.
    unfold AssignModel.assign_ids. destruct (db_open (fs_of t)) as [db| |] eqn:Eo;
      [|intros H; injection H as <- <-; left; split; [reflexivity|discriminate]..].
    destruct (db_iter db) as [|a0 advs0] eqn:Ei; [intros H; injection H as <- <-; left; split; [reflexivity|discriminate]|].
    rewrite <- Ei in *. assert (Ne : db_iter db <> []) by congruence. clear Ei.
    destruct (highest (db_iter db) []) as [m| |] eqn:Eh; [|intros H; injection H as <- <-; left; split; [reflexivity|discriminate]..].
    set (s0 := mkSt m [] []). intros H. right. exists db, m.
    assert (C1 : exists l1 l2 r1, match rt_crates t with None => [] | Some es => flat "crates" es end = (l1 ++ l2)%list /\
        run_list (step3 toml checks) s0 l1 = (fst (assign_collection toml checks "crates" s0 (rt_crates t)), r1) /\
        (snd (assign_collection toml checks "crates" s0 (rt_crates t)) = Ok tt -> l2 = [] /\ r1 = Ok tt)).
    { unfold assign_collection. destruct (rt_crates t) as [es|]; [|exists [], [], (Ok tt); repeat apply conj; auto].
      destruct (run_list (assign_entry toml checks "crates") s0 es) as [s1 o1] eqn:R.
      destruct (run_entries toml checks _ _ _ _ _ R) as (l1 & l2 & E & r1 & R1 & K). exists l1, l2, r1. auto. }
    destruct C1 as (l1 & l2 & r1 & E1 & R1 & K1).
    destruct (assign_collection toml checks "crates" s0 (rt_crates t)) as [s1 o1] eqn:A1. cbn [fst snd] in *.
    assert (Stop : forall e, e = r -> s1 = s -> (forall x, e <> Ok x) -> exists l1 l2 r1, Ok db = Ok db /\ db_iter db <> [] /\ highest (db_iter db) [] = Ok m /\
      flat_all t = (l1 ++ l2)%list /\ run_list (step3 toml checks) s0 l1 = (s, r1) /\
      (forall x, r = Ok x -> l2 = [] /\ r1 = Ok tt) /\
      (forall x, r = Ok x -> g = false -> x = None) /\
      (forall x, r = Ok x -> g = true -> exists y, x = Some y /\ make_title (map (fun d => fst d ++ " to " ++ snd d) (s_done s)) = Ok y)).
    { intros e <- <- N. eexists l1, _, r1. repeat apply conj; auto; try (intros x Hx; exfalso; exact (N x Hx)).
      unfold flat_all. rewrite E1, <- app_assoc. reflexivity. }
    destruct o1 as [[]| |].
    2:{ injection H as H1 H2. apply (Stop Err); [exact H2|exact H1|discriminate]. }
    2:{ injection H as H1 H2. apply (Stop Panic); [exact H2|exact H1|discriminate]. }
    clear Stop. destruct (K1 eq_refl) as [-> ->]. rewrite app_nil_r in E1.
    assert (C2 : exists l1' l2' r1', match rt_rust t with None => [] | Some es => flat "rust" es end = (l1' ++ l2')%list /\
        run_list (step3 toml checks) s1 l1' = (fst (assign_collection toml checks "rust" s1 (rt_rust t)), r1') /\
        (snd (assign_collection toml checks "rust" s1 (rt_rust t)) = Ok tt -> l2' = [] /\ r1' = Ok tt)).
    { unfold assign_collection. destruct (rt_rust t) as [es|]; [|exists [], [], (Ok tt); repeat apply conj; auto].
      destruct (run_list (assign_entry toml checks "rust") s1 es) as [s2 o2] eqn:R.
      destruct (run_entries toml checks _ _ _ _ _ R) as (k1 & k2 & E & r2 & R2 & K). exists k1, k2, r2. auto. }
    destruct C2 as (k1 & k2 & r2 & E2 & R2 & K2).
    destruct (assign_collection toml checks "rust" s1 (rt_rust t)) as [s2 o2] eqn:A2. cbn [fst snd] in *.
    exists (l1 ++ k1)%list, k2, r2. split; [reflexivity|]. split; [exact Ne|]. split; [exact Eh|].
    split; [unfold flat_all; rewrite E1, E2, app_assoc; reflexivity|].
    destruct o2 as [[]| |]; injection H as <- H2; (split; [rewrite run_app; fold s0; rewrite R1; exact R2|]); (split; [|split]);
      try (intros x Hx; rewrite <- H2 in Hx; discriminate Hx).
    - intros x Hx. exact (K2 eq_refl).
    - intros x Hx Hg. rewrite Hg in H2. congruence.
    - intros x Hx Hg. rewrite Hg in H2. destruct (make_title _) as [y| |]; cbn [obind] in H2; [|congruence..].
      exists y. split; [congruence|reflexivity].
  Qed.

  Definition item_of (d : path * string) (i : item) : Prop :=
    it_path i = fst d /\ it_text i = snd d /\ draft_year (snd d) = Ok (it_year i) /\ it_num i <= u32_max.

  (** The run as a plan over the drafts. *)
  Lemma run_drafts g t s r db : db_open (fs_of t) = Ok db -> room t db -> drafts_dated t -> assign_ids g t = (s, r) ->
    exists pl ds rest h,
      (pl <> [] -> forall y, top_number (db_iter db) y (h y)) /\
      drafts t = (ds ++ rest)%list /\ Forall2 item_of ds pl /\ Forall good_item pl /\ numbering h pl /\
      s_ops s = flat_map block pl /\
      s_done s = map (fun i => (it_id i, snd (fst (it_path i)))) (filter it_done pl) /\
      (all_done pl \/ exists pl0 i, pl = (pl0 ++ [i])%list /\ all_done pl0 /\ it_done i = false) /\
      (forall x, r = Ok x -> rest = [] /\ all_done pl).
  Proof.
    intros Eo Rm Dd H. destruct (run_all g t s r H) as [[-> N]|(db' & m & l1 & l2 & r1 & Eo' & _ & Eh & Ef & R & K & _)].
    { exists [], [], (drafts t), (fun _ => 0). cbn. repeat apply conj; auto; try constructor; try constructor; try congruence;
        exfalso; eapply N; eassumption. }
    rewrite Eo in Eo'. injection Eo' as <-. pose proof (highest_top _ _ Eh) as Top.
    assert (B : forall y, hi m y + N.of_nat (List.length l1) <= u32_max).
    { intros y. destruct (Top y) as [_ T]. assert (L : (List.length l1 <= List.length (texts t))%nat).
      { rewrite <- flat_all_texts, map_length, Ef, app_length. lia. }
      assert (hi m y + N.of_nat (List.length (texts t)) <= u32_max); [|lia]. apply Rm.
      destruct T as [T|(a & Ha & _ & Na)]; [left; exact T|right; exists a; auto]. }
    destruct (run_plan toml checks l1 _ _ _ R B) as (pl & ds & rest & E & F & Nm & Eops & Edone & Last & Kk).
    cbn [s_high s_ops s_done app] in *.
    exists pl, (map fl_text ds), (map fl_text (rest ++ filter is_draft_fl l2)%list), (hi m).
    assert (Ed : drafts t = (map fl_text ds ++ map fl_text (rest ++ filter is_draft_fl l2))%list).
    { unfold drafts. rewrite <- flat_all_texts, <- drafts_fl, Ef, filter_app, E. rewrite <- map_app, <- app_assoc. reflexivity. }
    assert (F' : Forall2 item_of (map fl_text ds) pl).
    { clear - F. induction F as [|x i ds pl (A1 & A2 & A3 & A4 & _) F IH]; cbn [map]; constructor; auto.
      unfold item_of. cbn [fl_text fst snd]. rewrite <- A2. auto. }
    split; [intros _ y; apply Top|]. split; [exact Ed|]. split; [exact F'|]. split.
    { assert (In_d : forall d, In d (map fl_text ds) -> In d (drafts t)) by (intros d Hd; rewrite Ed, in_app_iff; left; exact Hd).
      clear - F' In_d Dd. induction F' as [|d i l pl (A1 & A2 & A3 & _) F IH]; constructor.
      - assert (Hd : In d (drafts t)) by (apply In_d; left; reflexivity). split.
        + rewrite A1. unfold drafts in Hd. apply filter_In in Hd as [_ Hd]. exact Hd.
        + pose proof (Dd d _ Hd A3). lia.
      - apply IH. intros e He. apply In_d. right. exact He. }
    split; [exact Nm|]. split; [exact Eops|]. split; [exact Edone|]. split; [exact Last|].
    intros x Hx. destruct (K x Hx) as [-> ->]. destruct (Kk eq_refl) as [-> A]. split; [reflexivity|exact A].
  Qed.
End Whole.
