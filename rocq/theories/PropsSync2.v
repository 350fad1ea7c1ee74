(** Property theorems C73, continued: whole runs. *)
From Coq Require Import List NArith ZArith Ascii String Bool Lia Sorting.Sorted.
From Verif Require Import Base StrLib SemverModel OsvModel IdModel IdSpec IdProofs VerText PkgModel DbModel DbProofs UrlModel CvssText CvssTextProofs
  ScanModel PartsModel PartsSpec PropsParts AdvModel LintModel LintProofs2 MtimeModel OsvAdvModel SortProofs PropsOsvAdv PropsOsvAdv2 PropsOsvImport SyncModel PropsSync.
Import ListNotations.
Local Open Scope string_scope.

(** The ids of the document are ones the reader accepts, as for every document it has read. *)
Definition good_doc (o : osv_advisory) : Prop := good_id (o_id o) /\ Forall good_id (o_aliases o).
(** The document is about no advisory. *)
Definition unlinked (db : list full_advisory) (o : osv_advisory) : Prop :=
  (forall r i, In r (o_references o) -> ~ names_advisory r i) /\ forall a, In a db -> ~ In (o_id o) (m_aliases (f_meta a)).
(** Its references to advisory pages name advisories of the database. *)
Definition refs_known (db : list full_advisory) (o : osv_advisory) : Prop :=
  forall r, In r (o_references o) -> is_advisory_page r -> exists a, In a db /\ names_advisory r (aid a).

Lemma evolved_ext t t' (J K : string -> Prop) : (forall s, J s <-> K s) -> evolved t t' J -> evolved t t' K.
Proof.
  intros E [P (m & m' & l & l' & r & r' & T & T' & S & A & A' & IA & Q)]. split; [exact P|]. exists m, m', l, l', r, r'.
  split; [exact T|]. split; [exact T'|]. split; [exact S|]. split; [exact A|]. split; [exact A'|]. split; [|exact Q]. intros s. rewrite IA, E. reflexivity.
Qed.
Lemma missing_in a o j : In j (missing_aliases a o) <-> goes_by o j /\ j <> aid a /\ ~ In j (m_aliases (f_meta a)).
Proof.
  unfold missing_aliases, goes_by, aid. rewrite filter_In, in_app_iff, !andb_true_iff, !negb_true_iff. cbn [In].
  assert (K : is_cve_or_ghsa j = true <-> id_kind_of j = KCve \/ id_kind_of j = KGhsa).
  { unfold is_cve_or_ghsa. destruct (id_kind_of j); split; try tauto; try discriminate; intros [|]; discriminate. }
  assert (X : existsb (id_eqb j) (m_aliases (f_meta a)) = false <-> ~ In j (m_aliases (f_meta a))).
  { rewrite <- not_true_iff_false, existsb_exists. split.
    - intros N I. apply N. exists j. split; [exact I|]. destruct (id_eqb_spec j j); congruence.
    - intros N (k & I & E). destruct (id_eqb_spec j k); [subst; contradiction|discriminate]. }
  assert (Y : id_eqb j (m_id (f_meta a)) = false <-> j <> m_id (f_meta a)) by (destruct (id_eqb_spec j (m_id (f_meta a))); split; congruence).
  rewrite K, X, Y. intuition auto.
Qed.
Lemma about_iff o c : existsb (fun d => String.eqb d c) (osv_crates o) = true <-> about_crate o c.
Proof.
  rewrite existsb_exists. unfold about_crate. rewrite <- (proj1 (proj2 (C69_crates o)) c). split.
  - intros (d & I & E). apply String.eqb_eq in E as <-. exact I.
  - intros I. exists c. split; [exact I|apply String.eqb_refl].
Qed.

Section Run.
  Context (x : externals) (db : list full_advisory) (krate_name : string -> bool).
  Context (ND : NoDup (map aid db)).

  Lemma same_advisory a b : In a db -> In b db -> aid a = aid b -> a = b.
  Proof.
    clear krate_name. revert ND. induction db as [|c l IH]; intros N; [intros []|]. cbn [map] in N. inversion N as [|? ? N1 N2]; subst. cbn [In].
    intros [<-|A] [<-|B] E; auto.
    - exfalso. apply N1. rewrite E. apply in_map, B.
    - exfalso. apply N1. rewrite <- E. apply in_map, A.
  Qed.
  Lemma find_known a : In a db -> find_advisory (aid a) db = Some a.
  Proof.
    intros I. unfold find_advisory. destruct (find (fun b => id_eqb (m_id (f_meta b)) (aid a)) db) as [b|] eqn:F.
    - apply find_some in F as [J E]. destruct (id_eqb_spec (m_id (f_meta b)) (aid a)) as [E'|]; [|discriminate]. f_equal. exact (same_advisory b a J I E').
    - exfalso. pose proof (find_none _ _ F a I) as E. cbv beta in E. destruct (id_eqb_spec (m_id (f_meta a)) (aid a)) as [|N]; [discriminate|]. apply N. reflexivity.
  Qed.
  Lemma find_unknown i : (forall a, In a db -> aid a <> i) -> find_advisory i db = None.
  Proof.
    intros N. unfold find_advisory. destruct (find _ db) as [b|] eqn:F; [|reflexivity]. exfalso. apply find_some in F as [J E].
    destruct (id_eqb_spec (m_id (f_meta b)) i) as [E'|]; [|discriminate]. exact (N b J E').
  Qed.

  Section From.
    Context (r0 : repo) (H0 : forall a, In a db -> holds x r0 a).
    Lemma ids_good a : In a db -> good_id (aid a).
    Proof.
      intros I. destruct (H0 a I) as (t & md & a0 & _ & D & E). unfold aid. rewrite E. cbn [with_title f_meta m_id].
      destruct (decoded_arrays x t a0 D) as (m & l & r & _ & DM & _). unfold decode_metadata in DM. bind DM. apply field_req_ok in E0 as (v & _ & F).
      apply de_from_ok in F as (s & _ & F). do 17 bind DM.
      apply (f_equal (fun o => match o with Ok a => m_id a | _ => a1 end)) in DM. cbv beta iota in DM. cbn [m_id] in DM. rewrite <- DM. exact (id_good _ _ F).
    Qed.
    Lemma place_inj a b : In a db -> In b db -> file_place a = file_place b -> a = b.
    Proof.
      intros A B. unfold file_place. intros [= _ E]. apply same_advisory; auto. pose proof (ids_good a A) as GA. pose proof (ids_good b B) as GB.
      unfold good_id, aid in *. apply (f_equal srev) in E. rewrite !srev_sapp in E. apply sapp_inj_l in E. apply (f_equal srev) in E. rewrite !srev_involutive in E. congruence.
    Qed.

    Definition strings_of (J : adv_id -> Prop) (s : string) : Prop := exists j, J j /\ id_string j = s.
    Record inv (r : repo) (G : full_advisory -> adv_id -> Prop) : Prop := mkInv {
      inv_db : forall a, In a db -> exists t md t', rget (file_place a) r0 = Some (Doc t md) /\ rget (file_place a) r = Some (Doc t' md) /\
        evolved t t' (strings_of (G a)) /\ ((forall j, ~ G a j) -> t' = t);
      inv_other : forall p, (forall a, In a db -> p <> file_place a) -> rget p r = rget p r0 }.
    Lemma inv_ext r G G' : (forall a j, In a db -> G a j <-> G' a j) -> inv r G -> inv r G'.
    Proof.
      intros E [A B]. split; [|exact B]. intros a I. destruct (A a I) as (t & md & t' & R & R' & V & U). exists t, md, t'. split; [exact R|]. split; [exact R'|]. split.
      - refine (evolved_ext _ _ _ _ _ V). intros s. unfold strings_of. split; intros (j & K & S); exists j; (split; [apply (E a j I), K|exact S]).
      - intros N. apply U. intros j K. exact (N j (proj1 (E a j I) K)).
    Qed.
    Lemma inv_start : inv r0 (fun _ _ => False).
    Proof.
      split; [|reflexivity]. intros a I. destruct (H0 a I) as (t & md & a0 & R & D & _). exists t, md, t. split; [exact R|]. split; [exact R|]. split; [|reflexivity].
      destruct (decoded_arrays x t a0 D) as (m & l & r & T & _ & A & _ & Q & _). refine (evolved_ext _ _ _ _ _ (evolved_refl t m l r T A Q)).
      intros s. split; [intros []|intros (j & [] & _)].
    Qed.
    Definition add_missing (G : full_advisory -> adv_id -> Prop) (a : full_advisory) (o : osv_advisory) : full_advisory -> adv_id -> Prop :=
      fun b j => G b j \/ (b = a /\ In j (missing_aliases a o)).
    Lemma update_step a o r G : In a db -> inv r G -> exists r' n, update_advisory a o r = Ok (r', n) /\ inv r' (add_missing G a o) /\
      (n = 0 <-> missing_aliases a o = []) /\ (n = 0 -> r' = r).
    Proof.
      intros I V. unfold update_advisory. destruct (missing_aliases a o) as [|j0 js] eqn:M.
      - exists r, 0. split; [reflexivity|]. split; [|split; [split|]; reflexivity]. refine (inv_ext r G _ _ V). intros b j _. unfold add_missing. rewrite M. cbn. tauto.
      - destruct V as [VA VB]. destruct (VA a I) as (t & md & t' & R & R' & E & U). rewrite R'.
        destruct (evolved_step t t' _ (map id_string (j0 :: js)) E) as (t'' & D & E'). rewrite D. cbn [obind]. do 2 eexists. split; [reflexivity|].
        split; [|split; [split; discriminate|discriminate]]. split.
        + intros b J. destruct (place_eqb_spec (file_place a) (file_place b)) as [P|P].
          * assert (a = b) by (apply place_inj; assumption). subst b. exists t, md, t''. split; [exact R|]. split; [apply rget_rput_same|]. split.
            -- refine (evolved_ext _ _ _ _ _ E'). intros s. unfold strings_of, add_missing. rewrite M, in_map_iff. split.
               ++ intros [(j & K & S)|(j & S & K)]; exists j; (split; [|exact S]); [left; exact K|right; split; [reflexivity|exact K]].
               ++ intros (j & [K|[_ K]] & S); [left; exists j; auto|right; exists j; auto].
            -- intros N. exfalso. apply (N j0). right. split; [reflexivity|]. rewrite M. left. reflexivity.
          * destruct (VA b J) as (u & mb & u' & S & S' & F & W). exists u, mb, u'. split; [exact S|]. split; [rewrite rget_rput_other by exact P; exact S'|].
            assert (X : forall j, add_missing G a o b j <-> G b j) by (intros j; unfold add_missing; split; [intros [K|[-> _]]; [exact K|congruence]|tauto]).
            split; [|intros N; apply W; intros j K; exact (N j (proj2 (X j) K))].
            refine (evolved_ext _ _ _ _ _ F). intros s. unfold strings_of. split; intros (j & K & Q); exists j; (split; [apply X, K|exact Q]).
        + intros p N. rewrite rget_rput_other; [apply VB, N|]. intros <-. exact (N a I eq_refl).
    Qed.
    Definition add_all (G : full_advisory -> adv_id -> Prop) (ids : list adv_id) (o : osv_advisory) : full_advisory -> adv_id -> Prop :=
      fun b j => G b j \/ (In (aid b) ids /\ about_crate o (m_package (f_meta b)) /\ In j (missing_aliases b o)).
    Lemma update_all_ok o ids : forall s G, inv (y_repo s) G -> (forall i, In i ids -> exists a, In a db /\ aid a = i) ->
      exists s', update_all db o ids s = Ok s' /\ inv (y_repo s') (add_all G ids o) /\ y_check s' = y_check s /\ y_updated s <= y_updated s' /\
        (y_updated s' = y_updated s <-> forall a j, In a db -> In (aid a) ids -> about_crate o (m_package (f_meta a)) -> ~ In j (missing_aliases a o)) /\
        (y_updated s' = y_updated s -> y_repo s' = y_repo s).
    Proof.
      induction ids as [|i ids IH]; intros s G V K.
      - exists s. split; [reflexivity|]. split; [refine (inv_ext _ G _ _ V); intros b j _; unfold add_all; cbn [In]; tauto|]. split; [reflexivity|]. split; [lia|]. split; [|reflexivity].
        split; [intros _ a j _ []|reflexivity].
      - cbn [update_all]. destruct (K i (or_introl eq_refl)) as (a & I & <-). rewrite (find_known a I).
        assert (K' : forall k, In k ids -> exists b, In b db /\ aid b = k) by (intros k J; apply K; right; exact J).
        destruct (existsb (fun c => String.eqb c (m_package (f_meta a))) (osv_crates o)) eqn:B.
        + apply about_iff in B. destruct (update_step a o (y_repo s) G I V) as (r' & n & E & V' & Z & Z'). rewrite E. cbn [obind fst snd].
          destruct (IH (mkSync r' (y_updated s + n) (y_check s)) _ V' K') as (s' & E' & W & C & L & Q & Q'). exists s'. split; [exact E'|].
          cbn [y_repo y_updated y_check] in *. split; [|split; [exact C|split; [lia|split]]].
          * refine (inv_ext _ _ _ _ W). intros b j J. unfold add_all, add_missing. cbn [In]. split.
            -- intros [[X|[-> X]]|(X & Y & X')]; [left; exact X|right; auto|right; auto].
            -- intros [X|([X|X] & Y & X')]; [left; left; exact X| |right; auto]. assert (a = b) by (apply same_advisory; auto). subst b. left. right. auto.
          * split.
            -- intros U b j J [X|X] Y M; [assert (a = b) by (apply same_advisory; auto); subst b|].
               ++ assert (n = 0) by lia. apply Z in H. rewrite H in M. destruct M.
               ++ apply (proj1 Q ltac:(lia) b j J X Y M).
            -- intros N. assert (n = 0).
               { apply Z. destruct (missing_aliases a o) as [|j js] eqn:M; [reflexivity|]. exfalso. refine (N a j I (or_introl eq_refl) B _). rewrite M. left. reflexivity. }
               assert (y_updated s' = y_updated s + n) by (apply Q; intros b j J X; apply N; [exact J|right; exact X]). lia.
          * intros U. assert (n = 0) by lia. rewrite (Q' ltac:(lia)). apply Z', H.
        + assert (NB : ~ about_crate o (m_package (f_meta a))) by (intros X; apply about_iff in X; congruence).
          destruct (IH s G V K') as (s' & E' & W & C & L & Q & Q'). exists s'. split; [exact E'|]. split; [|split; [exact C|split; [exact L|split; [|exact Q']]]].
          * refine (inv_ext _ _ _ _ W). intros b j J. unfold add_all. cbn [In]. split; [intros [X|(X & Y & X')]; auto|].
            intros [X|([X|X] & Y & X')]; [left; exact X| |right; auto]. assert (a = b) by (apply same_advisory; auto). subst b. contradiction.
          * rewrite Q. cbn [In]. split; intros N b j J; [intros [X|X] Y|intros X Y]; [| |apply N; auto].
            -- assert (a = b) by (apply same_advisory; auto). subst b. contradiction.
            -- apply N; auto.
    Qed.
    Lemma update_all_panic o ids : forall s G, inv (y_repo s) G -> (exists i, In i ids /\ forall a, In a db -> aid a <> i) -> update_all db o ids s = Panic.
    Proof.
      induction ids as [|i ids IH]; intros s G V (k & J & N); [destruct J|]. cbn [update_all].
      destruct (find_advisory i db) as [a|] eqn:F; [|reflexivity].
      assert (I : In a db /\ aid a = i).
      { unfold find_advisory in F. apply find_some in F as [I E]. destruct (id_eqb_spec (m_id (f_meta a)) i) as [E'|]; [|discriminate]. auto. }
      destruct I as [I <-]. assert (J' : In k ids) by (destruct J as [<-|J]; [exfalso; exact (N a I eq_refl)|exact J]).
      destruct (existsb (fun c => String.eqb c (m_package (f_meta a))) (osv_crates o)); [|eapply IH; [exact V|exists k; auto]].
      destruct (update_step a o (y_repo s) G I V) as (r' & n & E & V' & _). rewrite E. cbn [obind fst snd]. eapply IH; [cbn [y_repo]; exact V'|exists k; auto].
    Qed.

    Lemma aliases_ok o ids : rustsec_aliases db o = Ok ids -> forall i, In i ids <->
      (exists r, In r (o_references o) /\ names_advisory r i) \/ exists a, In a db /\ aid a = i /\ In (o_id o) (m_aliases (f_meta a)).
    Proof.
      unfold rustsec_aliases. intros H. destruct (rustsec_refs_imported o) as [refs| |] eqn:R; cbn [obind] in H; try discriminate. injection H as <-. intros i.
      refine (iff_trans (sort_set_in id_cmp id_cmp_laws _ i) _). rewrite in_app_iff, in_map_iff, (proj2 (C69_imported_ids o refs R)).
      apply or_iff_compat_l. unfold aid. split.
      - intros (a & E & I). apply filter_In in I as [I X]. apply existsb_exists in X as (j & J & X). destruct (id_eqb_spec (o_id o) j); [subst j|discriminate]. exists a. auto.
      - intros (a & I & E & J). exists a. split; [exact E|]. apply filter_In. split; [exact I|]. apply existsb_exists. exists (o_id o). split; [exact J|].
        destruct (id_eqb_spec (o_id o) (o_id o)); congruence.
    Qed.
    Definition step_gain (o : osv_advisory) (b : full_advisory) (j : adv_id) : Prop :=
      o_withdrawn o = None /\ linked o b /\ about_crate o (m_package (f_meta b)) /\ In j (missing_aliases b o).
    Definition to_check (o : osv_advisory) (c : string) : Prop := o_withdrawn o = None /\ unlinked db o /\ about_crate o c /\ krate_name c = true.
    Lemma sync_one_cases o s G : inv (y_repo s) G ->
      ((o_withdrawn o = None -> refs_known db o) /\ exists s', sync_one db krate_name o s = Ok s' /\ inv (y_repo s') (fun b j => G b j \/ step_gain o b j) /\
        (exists l, y_check s' = (y_check s ++ map (fun c => (c, o)) l)%list /\ forall c, In c l <-> to_check o c) /\ y_updated s <= y_updated s' /\
        (y_updated s' = y_updated s <-> forall a j, In a db -> ~ step_gain o a j) /\ (y_updated s' = y_updated s -> y_repo s' = y_repo s)) \/
      (o_withdrawn o = None /\ ~ refs_known db o /\ sync_one db krate_name o s = Panic).
    Proof.
      intros V. unfold sync_one. destruct (o_withdrawn o) as [w|] eqn:W.
      { left. split; [discriminate|]. exists s. split; [reflexivity|]. split.
        { refine (inv_ext _ G _ _ V). intros b j _. unfold step_gain. rewrite W. split; [tauto|]. intros [K|(K & _)]; [exact K|discriminate]. }
        split; [exists []; split; [cbn; rewrite app_nil_r; reflexivity|]; intros c; cbn; unfold to_check; rewrite W; split; [intros []|intros (K & _); discriminate]|].
        split; [lia|]. split; [|reflexivity]. split; [intros _ a j _ (K & _); congruence|reflexivity]. }
      destruct (rustsec_aliases db o) as [ids| |] eqn:A; cbn [obind].
      - pose proof (aliases_ok o ids A) as M.
        assert (LK : forall a, In a db -> In (aid a) ids <-> linked o a).
        { intros a I. rewrite M. unfold linked. apply or_iff_compat_l. split; [|intros J; exists a; auto].
          intros (b & J & E & K). rewrite <- (same_advisory b a J I E). exact K. }
        assert (RK : (forall i, In i ids -> exists a, In a db /\ aid a = i) <-> refs_known db o).
        { split.
          - intros K r J P. destruct (rustsec_refs_imported o) as [refs| |] eqn:R.
            + destruct (imported_cases r) as [[i E]|E].
              * apply imported_ok in E; [|exact P]. destruct (K i) as (a & I & <-); [apply M; left; exists r; auto|]. exists a. auto.
              * exfalso. assert (X : rustsec_refs_imported o = Panic); [|congruence]. apply C69_import_panics. exists r. split; [exact J|]. split; [exact P|].
                intros i Y. apply imported_ok in Y; [congruence|exact P].
            + exfalso. exact (proj1 (C69_import_panics o) R).
            + unfold rustsec_aliases in A. rewrite R in A. discriminate.
          - intros K i J. apply M in J as [(r & J & Y)|(a & I & E & _)]; [|exists a; auto].
            assert (P : is_advisory_page r) by (destruct Y as (s0 & rest & U & _); exists (s0 ++ rest); exact U).
            destruct (K r J P) as (a & I & Z). exists a. split; [exact I|]. apply imported_ok in Y; [|exact P]. apply imported_ok in Z; [|exact P]. congruence. }
        destruct ids as [|i0 ids0].
        + left. split; [intros _; apply RK; intros i []|]. eexists. split; [reflexivity|]. cbn [y_repo y_check y_updated]. split.
          { refine (inv_ext _ G _ _ V). intros b j I. unfold step_gain. split; [tauto|]. intros [K|(_ & K & _)]; [exact K|]. apply LK in K; [destruct K|exact I]. }
          assert (U : unlinked db o).
          { split; [intros r i J Y|intros a I J].
            - apply (in_nil (proj2 (M i) (or_introl (ex_intro _ r (conj J Y))))).
            - apply (in_nil (proj2 (M (aid a)) (or_intror (ex_intro _ a (conj I (conj eq_refl J)))))). }
          split; [eexists; split; [reflexivity|]|split; [lia|split; [split; [|reflexivity]|reflexivity]]].
          * intros c. rewrite filter_In. unfold to_check, about_crate. rewrite (proj1 (proj2 (C69_crates o)) c). tauto.
          * intros _ a j I (_ & K & _). apply LK in K; [destruct K|exact I].
        + set (ids := i0 :: ids0) in *. assert (DEC : (forall i, In i ids -> exists a, In a db /\ aid a = i) \/ exists i, In i ids /\ forall a, In a db -> aid a <> i).
          { clear -ids. induction ids as [|i l IH]; [left; intros i []|]. destruct (find_advisory i db) as [a|] eqn:F.
            - unfold find_advisory in F. apply find_some in F as [I E]. destruct (id_eqb_spec (m_id (f_meta a)) i) as [E'|]; [|discriminate].
              destruct IH as [IH|(k & J & N)]; [left; intros k [<-|J]; [exists a; auto|exact (IH k J)]|right; exists k; split; [right; exact J|exact N]].
            - right. exists i. split; [left; reflexivity|]. intros a I <-. unfold find_advisory in F. pose proof (find_none _ _ F a I) as E. cbv beta in E.
              destruct (id_eqb_spec (m_id (f_meta a)) (aid a)) as [|N]; [discriminate|]. apply N. reflexivity. }
          destruct DEC as [K|K].
          * left. split; [intros _; apply RK, K|]. destruct (update_all_ok o ids s G V K) as (s' & E & V' & C & L & Q & Q'). exists s'. split; [exact E|]. split.
            { refine (inv_ext _ _ _ _ V'). intros b j I. unfold add_all, step_gain. rewrite (LK b I). tauto. }
            split; [|split; [exact L|split; [|exact Q']]].
            -- exists []. split; [cbn; rewrite app_nil_r; exact C|]. intros c. cbn. split; [intros []|]. intros (_ & [U1 U2] & _).
               destruct (proj1 (M i0) (or_introl eq_refl)) as [(r & J & Y)|(a & I & E' & J)]; [exact (U1 r i0 J Y)|exact (U2 a I J)].
            -- rewrite Q. split; intros N a j I; [intros (_ & X & Y & Z); exact (N a j I (proj2 (LK a I) X) Y Z)|intros X Y Z; apply (N a j I); split; [exact W|]; split; [apply LK; assumption|]; auto].
          * right. split; [reflexivity|]. split; [|exact (update_all_panic o ids s G V K)]. intros X. destruct K as (i & J & N).
            destruct (proj2 RK X i J) as (a & I & E). exact (N a I E).
      - exfalso. unfold rustsec_aliases in A. destruct (rustsec_refs_imported o) eqn:R; try discriminate. exact (proj1 (C69_import_panics o) R).
      - right. split; [reflexivity|]. split; [|reflexivity]. unfold rustsec_aliases in A. destruct (rustsec_refs_imported o) eqn:R; try discriminate.
        apply C69_import_panics in R as (r & J & P & N). intros K. destruct (K r J P) as (a & _ & Y). exact (N _ Y).
    Qed.
    Lemma sync_all_cases os : forall s G, inv (y_repo s) G ->
      ((forall o, In o os -> o_withdrawn o = None -> refs_known db o) /\ exists s', sync_all db krate_name os s = Ok s' /\
        inv (y_repo s') (fun b j => G b j \/ exists o, In o os /\ step_gain o b j) /\
        (exists l, y_check s' = (y_check s ++ l)%list /\ forall c o, In (c, o) l <-> In o os /\ to_check o c) /\ y_updated s <= y_updated s' /\
        (y_updated s' = y_updated s <-> forall o a j, In o os -> In a db -> ~ step_gain o a j) /\ (y_updated s' = y_updated s -> y_repo s' = y_repo s)) \/
      (~ (forall o, In o os -> o_withdrawn o = None -> refs_known db o) /\ sync_all db krate_name os s = Panic).
    Proof.
      induction os as [|o os IH]; intros s G V; cbn [sync_all].
      - left. split; [intros o []|]. exists s. split; [reflexivity|]. split.
        { refine (inv_ext _ G _ _ V). intros b j _. split; [tauto|]. intros [K|(o & [] & _)]. exact K. }
        split; [exists []; split; [rewrite app_nil_r; reflexivity|]; intros c o; cbn; tauto|]. split; [lia|]. split; [|reflexivity]. split; [intros _ o a j []|reflexivity].
      - destruct (sync_one_cases o s G V) as [(K1 & s1 & E1 & V1 & (l1 & C1 & M1) & L1 & Q1 & R1)|(W & N & E)].
        + rewrite E1. cbn [obind]. destruct (IH s1 _ V1) as [(K2 & s2 & E2 & V2 & (l2 & C2 & M2) & L2 & Q2 & R2)|(N & E)].
          * left. split; [intros o' [<-|J]; auto|]. exists s2. split; [exact E2|]. split.
            { refine (inv_ext _ _ _ _ V2). intros b j _. split.
              - intros [[X|X]|(o' & J & X)]; [left; exact X|right; exists o; split; [left; reflexivity|exact X]|right; exists o'; split; [right; exact J|exact X]].
              - intros [X|(o' & [<-|J] & X)]; [tauto|tauto|]. right. exists o'. auto. }
            split; [|split; [lia|split; [split|]]].
            -- exists (map (fun c => (c, o)) l1 ++ l2)%list. split; [rewrite C2, C1, app_assoc; reflexivity|]. intros c o'. rewrite in_app_iff, in_map_iff, M2. cbn [In]. split.
               ++ intros [(c' & [= -> <-] & J)|[J X]]; [split; [left; reflexivity|apply M1, J]|split; [right; exact J|exact X]].
               ++ intros [[<-|J] X]; [left; exists c; split; [reflexivity|apply M1, X]|right; auto].
            -- intros U o' a j [<-|J]; [apply Q1; lia|apply Q2; [lia|exact J]].
            -- intros N. assert (y_updated s1 = y_updated s) by (apply Q1; intros a j; apply N; left; reflexivity).
               assert (y_updated s2 = y_updated s1) by (apply Q2; intros o' a j J; apply N; right; exact J). lia.
            -- intros U. rewrite (R2 ltac:(lia)). apply R1. lia.
          * right. split; [|exact E]. intros K. apply N. intros o' J. apply K. right. exact J.
        + right. rewrite E. split; [|reflexivity]. intros K. apply N. apply K; [left; reflexivity|exact W].
    Qed.
  End From.
End Run.

(** ** The property *)
Section Theorems.
  Context (x : externals) (db : list full_advisory) (krate_name : string -> bool) (known : string -> bool) (os : list osv_advisory) (r : repo).
  Context (ND : NoDup (map aid db)) (H0 : forall a, In a db -> holds x r a) (GD : forall o, In o os -> good_doc o).

  Lemma gains_iff a j : (exists o, In o os /\ step_gain o a j) <-> gains os a j.
  Proof.
    unfold step_gain, gains. split; intros (o & I & W & L & B & M); exists o; (split; [exact I|split; [exact W|split; [exact L|split; [exact B|apply missing_in, M]]]]).
  Qed.
  Lemma gains_good a j : gains os a j -> good_id j.
  Proof.
    intros (o & I & _ & _ & _ & ([->|J] & _) & _); destruct (GD o I) as [G F]; [exact G|]. rewrite Forall_forall in F. exact (F j J).
  Qed.

  (** The run never fails, and it panics exactly if a document in force refers to an advisory page of no known advisory. *)
  Theorem C73_outcome : sync db krate_name known os r <> Err /\
    (sync db krate_name known os r <> Panic <-> forall o, In o os -> o_withdrawn o = None -> refs_known db o).
  Proof.
    unfold sync. destruct (sync_all_cases x db krate_name ND r H0 os (mkSync r 0 []) _ (inv_start x db r H0)) as [(K & s & E & _)|(N & E)]; rewrite E; cbn [obind].
    - split; [discriminate|]. split; [intros _; exact K|intros _; discriminate].
    - split; [discriminate|]. split; [congruence|]. intros K. contradiction.
  Qed.

  (** Afterwards the file of each advisory holds it with the aliases it had and those it gains; nothing else changes, in
      this file or any other. *)
  Theorem C73_aliases_are_added : forall r' n missing, sync db krate_name known os r = Ok (r', n, missing) ->
    (forall a, In a db -> exists t md t' a1 al re,
       rget (file_place a) r = Some (Doc t md) /\ rget (file_place a) r' = Some (Doc t' md) /\
       decode_advisory x t' = Ok a1 /\ with_title a1 (m_title (f_meta a)) (m_description (f_meta a)) = with_ids a al re /\
       (forall j, In j al <-> In j (m_aliases (f_meta a)) \/ gains os a j) /\ (forall j, In j re <-> In j (m_related (f_meta a))) /\
       same_but ["advisory"] t t' /\
       (exists m m', tget "advisory" t = Some (TTab m) /\ tget "advisory" t' = Some (TTab m') /\ same_but ["aliases"; "related"] m m') /\
       ((forall j, ~ gains os a j) -> t' = t)) /\
    (forall p, (forall a, In a db -> p <> file_place a) -> rget p r' = rget p r).
  Proof.
    intros r' n missing. unfold sync. destruct (sync_all_cases x db krate_name ND r H0 os (mkSync r 0 []) _ (inv_start x db r H0)) as [(K & s & E & [VA VB] & _)|(N & E)]; rewrite E; cbn [obind]; [|discriminate].
    intros [= <- <- <-]. split; [|exact VB]. intros a I. destruct (VA a I) as (t & md & t' & R & R' & V & U).
    destruct (H0 a I) as (t0 & md0 & a0 & R0 & D & EA). rewrite R in R0. injection R0 as <- <-.
    assert (V' : evolved t t' (fun s => exists j, gains os a j /\ id_string j = s)).
    { refine (evolved_ext _ _ _ _ _ V). intros s0. unfold strings_of. split; intros (j & X & S); exists j; (split; [|exact S]).
      - destruct X as [[]|X]. apply gains_iff, X.
      - right. apply gains_iff, X. }
    destruct (evolved_decodes x t t' (gains os a) a0 D (gains_good a) V') as (al & re & D' & IA & IR).
    exists t, md, t', (with_ids a0 al re), al, re. split; [exact R|]. split; [exact R'|]. split; [exact D'|]. split; [rewrite EA; reflexivity|].
    assert (EM : m_aliases (f_meta a) = m_aliases (f_meta a0) /\ m_related (f_meta a) = m_related (f_meta a0)) by (rewrite EA; split; reflexivity).
    destruct EM as [-> ->]. split; [exact IA|]. split; [exact IR|]. destruct V' as [P (m & m' & l & l' & q & q' & T & T' & S & _)]. split; [exact P|]. split; [exists m, m'; auto|].
    intros N. apply U. intros j [[]|X]. apply (N j), gains_iff, X.
  Qed.

  (** It reports that all is up to date exactly if no advisory gains an alias, and then nothing is written. *)
  Theorem C73_up_to_date : forall r' n missing, sync db krate_name known os r = Ok (r', n, missing) ->
    (n = 0 <-> forall a j, In a db -> ~ gains os a j) /\ (n = 0 -> r' = r).
  Proof.
    intros r' n missing. unfold sync. destruct (sync_all_cases x db krate_name ND r H0 os (mkSync r 0 []) _ (inv_start x db r H0)) as [(K & s & E & _ & _ & _ & Q & Q')|(N & E)]; rewrite E; cbn [obind]; [|discriminate].
    intros [= <- <- <-]. cbn [y_updated y_repo] in *. split; [|exact Q']. rewrite Q. split.
    - intros N a j I G. apply gains_iff in G as (o & J & G). exact (N o a j J I G).
    - intros N o a j J I G. apply (N a j I), gains_iff. exists o. auto.
  Qed.

  (** The documents reported as missing are those in force which are about no advisory but about a published crate. *)
  Theorem C73_missing : forall r' n missing, sync db krate_name known os r = Ok (r', n, missing) ->
    forall o, In o missing <-> In o os /\ o_withdrawn o = None /\ unlinked db o /\
      exists c, about_crate o c /\ krate_name c = true /\ known c = true.
  Proof.
    intros r' n missing. unfold sync. destruct (sync_all_cases x db krate_name ND r H0 os (mkSync r 0 []) _ (inv_start x db r H0)) as [(K & s & E & _ & (l & C & M) & _)|(N & E)]; rewrite E; cbn [obind]; [|discriminate].
    intros [= <- <- <-] o. rewrite C. cbn [y_check app]. rewrite in_map_iff. split.
    - intros ((c & o') & <- & J). apply filter_In in J as [J X]. apply M in J as (J & W & U & B & Y). cbn [fst snd] in *. split; [exact J|]. split; [exact W|]. split; [exact U|]. exists c. auto.
    - intros (J & W & U & c & B & Y & X). exists (c, o). split; [reflexivity|]. apply filter_In. split; [|exact X]. apply M. split; [exact J|]. split; [exact W|]. auto.
  Qed.
End Theorems.

(** A second run, after the database has been read again, finds nothing to do unless an advisory has gained as an alias
    the id of a document that was not linked to it before. *)
Theorem C73_second_run : forall x db db' krate_name known os r r' n missing,
  NoDup (map aid db) -> (forall a, In a db -> holds x r a) -> (forall o, In o os -> good_doc o) ->
  sync db krate_name known os r = Ok (r', n, missing) ->
  (forall a', In a' db' -> exists a, In a db /\ aid a' = aid a /\ m_package (f_meta a') = m_package (f_meta a) /\
     forall j, In j (m_aliases (f_meta a')) <-> In j (m_aliases (f_meta a)) \/ gains os a j) ->
  (forall a, In a db -> exists a', In a' db' /\ aid a' = aid a) -> NoDup (map aid db') -> (forall a', In a' db' -> holds x r' a') ->
  (forall a o, In a db -> In o os -> gains os a (o_id o) -> linked o a) ->
  exists missing', sync db' krate_name known os r' = Ok (r', 0, missing').
Proof.
  intros x db db' krate_name known os r r' n missing ND H G S A B ND' H' N.
  assert (NG : forall a' j, In a' db' -> ~ gains os a' j).
  { intros a' j I (o & J & W & L & AB & GB & NE & NI). destruct (A a' I) as (a & Ia & E & P & M).
    assert (L' : linked o a).
    { destruct L as [(rf & K & X)|K]; [left; exists rf; rewrite <- E; auto|]. apply M in K as [K|K]; [right; exact K|]. apply N; auto. }
    apply NI. apply M. destruct (in_dec (fun i k => match id_eqb_spec i k with ReflectT _ e => left e | ReflectF _ e => right e end) j (m_aliases (f_meta a))) as [K|K]; [left; exact K|right].
    exists o. split; [exact J|]. split; [exact W|]. split; [exact L'|]. split; [rewrite <- P; exact AB|]. split; [exact GB|]. split; [rewrite <- E; exact NE|exact K]. }
  destruct (C73_outcome x db' krate_name known os r' ND' H') as [NE NP].
  assert (NP' : sync db' krate_name known os r' <> Panic).
  { apply NP. intros o J W. destruct (C73_outcome x db krate_name known os r ND H) as [_ P]. 
    assert (K : refs_known db o) by (apply P; [rewrite S; discriminate|exact J|exact W]). intros rf I Y. destruct (K rf I Y) as (a & Ia & X).
    destruct (B a Ia) as (a' & I' & E). exists a'. split; [exact I'|]. rewrite E. exact X. }
  destruct (sync db' krate_name known os r') as [[[r'' n'] m']| |] eqn:S'; [|congruence|congruence]. exists m'.
  destruct (C73_up_to_date x db' krate_name known os r' ND' H' r'' n' m' S') as [U1 U2]. assert (n' = 0) by (apply U1, NG). rewrite (U2 H0), H0. reflexivity.
Qed.
