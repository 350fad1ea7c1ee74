(** C81: a JSON report is read back as the report it was written from. *)
From Coq Require Import List NArith ZArith Ascii String Bool Arith Lia Sorting.Sorted.
From Verif Require Import Base StrLib SemverModel OsvModel IdModel IdSpec IdProofs PkgModel DbModel DbSpec VerText UrlModel UrlSpec UrlProofs SumModel PropsSource CvssText CvssTextProofs ScanModel PartsModel
  AdvModel MtimeModel OsvAdvModel LockModel PropsLockCli AuditModel SarifModel ConfigModel ConfigSpec PropsConfig DecodeSpec PropsDecode JsonSpec Calendar PropsMtime PropsOsvAdv PropsOsvAdv2 PropsOsvAdv3
  ReportJsonModel ReportJsonSpec PropsReportJson.
Import ListNotations.
Local Open Scope string_scope.

(** ** What is in a loaded lockfile *)
Lemma digest_ok n : forall s d, String.length s = (2 * n)%nat -> digest_loop s = Ok d -> List.length d = n /\ Forall (fun x => (x < 256)%N) d.
Proof.
  induction n as [|n IH]; intros s d E H.
  - destruct s; [|discriminate]. injection H as <-. split; [reflexivity|constructor].
  - destruct s as [|a [|b r]]; [discriminate|cbn in E; lia|]. cbn [digest_loop] in H. destruct (negb _); [discriminate|].
    assert (B : forall x, hex_byte a b = Some x -> (x < 256)%N).
    { intros x. unfold hex_byte. destruct (hex_val a) as [p|] eqn:Ha, (hex_val b) as [q|] eqn:Hb; try discriminate.
      - intros E0. assert (x = (16 * p + q)%N) by congruence. pose proof (proj2 (hex_boundary a p Ha)). pose proof (proj2 (hex_boundary b q Hb)). lia.
      - destruct (Ascii.eqb a "+"); [|discriminate]. intros [= <-]. pose proof (proj2 (hex_boundary b q Hb)). lia. }
    destruct (hex_byte a b) as [x|] eqn:X; [|discriminate]. destruct (digest_loop r) as [l| |] eqn:R; cbn [obind] in H; try discriminate. injection H as <-.
    destruct (IH r l) as [I1 I2]; [cbn in E; lia|exact R|]. split; [cbn; rewrite I1; reflexivity|]. constructor; [exact (B x eq_refl)|exact I2].
Qed.
Lemma checksum_digest t c : checksum_from_str t = Ok c -> is_digest c.
Proof.
  unfold checksum_from_str. destruct (Nat.eqb_spec (String.length t) 64) as [E|]; cbn [negb]; [|discriminate]. exact (digest_ok 32 t c E).
Qed.
Section Lock.
  Context (norm : string -> option string) (L : norm_laws norm).
  Definition read_src (o : option source_id) : Prop := forall s, o = Some s -> exists t, from_url norm t = Ok s.
  Definition read_enc (o : option enc_source) : Prop := forall e, o = Some e -> exists t, from_url norm t = Ok (es_inner e).
  Definition read_edep (d : enc_dep) : Prop := read_enc (ed_source d) /\ forall v, ed_version d = Some v -> version_wf v = true.
  Definition read_dep (d : dependency) : Prop := read_src (d_source d) /\ version_wf (d_version d) = true.
  Definition read_pkg (p : package) : Prop :=
    read_src (p_source p) /\ version_wf (p_version p) = true /\ (forall c, p_checksum p = Some c -> checksum_from_str (checksum_string c) = Ok c) /\
    (forall d, In d (p_deps p) -> read_dep d) /\ (forall d, p_replace p = Some d -> read_dep d).
  Lemma of_opt_parse v s : of_option (parse_version s) = Ok v -> version_wf v = true.
  Proof. destruct (parse_version s) as [w|] eqn:E; [|discriminate]. intros [= <-]. exact (proj1 (parse_version_inv s w E)). Qed.
  Lemma edep_read t d : enc_dep_from_str norm t = Ok d -> read_edep d.
  Proof.
    unfold enc_dep_from_str, read_edep, read_enc. destruct (words t) as [|n [|v [|p rest]]]; try discriminate.
    - intros [= <-]. cbn. split; discriminate.
    - destruct (of_option (parse_version v)) as [w| |] eqn:E; try discriminate. cbn [obind]. intros [= <-]. cbn. split; [discriminate|].
      intros ? [= <-]. exact (of_opt_parse _ _ E).
    - destruct (of_option (parse_version v)) as [w| |] eqn:E; try discriminate. cbn [obind].
      destruct (parse_paren_source norm p) as [s| |] eqn:P; try discriminate. cbn [obind]. destruct rest; [|discriminate].
      intros [= <-]. cbn. split; [|intros ? [= <-]; exact (of_opt_parse _ _ E)].
      intros ? [= <-]. cbn [es_inner]. unfold parse_paren_source in P. destruct (_ || _)%bool; [discriminate|]. eexists. exact P.
  Qed.
  Lemma inner_read e : read_enc e -> read_src (option_map es_inner e).
  Proof. intros H s. destruct e as [e|]; [|discriminate]. cbn. intros [= <-]. exact (H e eq_refl). Qed.
  Lemma dep_read pkgs d d' : (forall p, In p pkgs -> read_enc (ep_source p) /\ version_wf (ep_version p) = true) -> read_edep d -> dep_resolve pkgs d = Ok d' -> read_dep d'.
  Proof.
    intros P [D1 D2]. unfold dep_resolve. destruct (find _ pkgs) as [p|] eqn:F.
    - intros [= <-]. apply find_some in F as [F _]. destruct (P p F) as [P1 P2]. split; [apply inner_read; exact P1|exact P2].
    - destruct (ed_version d) as [v|]; try discriminate. cbn [of_option obind]. intros [= <-]. split; [apply inner_read; exact D1|exact (D2 v eq_refl)].
  Qed.
  Lemma load_read r l p : load norm r = Ok l -> In p (lk_packages l) -> read_pkg p.
  Proof.
    unfold load. destruct (omap (enc_package_of_raw norm) (rl_packages r)) as [eps| |] eqn:E1; try discriminate. cbn [obind].
    destruct (opt_outcome (enc_package_of_raw norm) (rl_root r)); try discriminate. cbn [obind].
    destruct (omap (patch_of_raw norm) (rl_patch r)) as [pa| |]; try discriminate. cbn [obind].
    destruct (match rl_version r with Some n => resolve_version_of n | None => detect_version eps (rl_metadata r) end) as [v| |]; try discriminate. cbn [obind].
    destruct (omap _ eps) as [ps| |] eqn:E2; try discriminate. cbn [obind].
    destruct (opt_outcome (pkg_resolve []) _); try discriminate. cbn [obind]. intros [= <-]. cbn [lk_packages].
    assert (Ck : forall t c, checksum_from_str t = Ok c -> checksum_from_str (checksum_string c) = Ok c).
    { intros t c H. apply C33_checksum_roundtrip. exact (checksum_digest t c H). }
    assert (Enc : forall e, In e eps -> (read_enc (ep_source e) /\ version_wf (ep_version e) = true) /\ (forall d, In d (ep_deps e) -> read_edep d) /\
       (forall d, ep_replace e = Some d -> read_edep d) /\ (forall c, ep_checksum e = Some c -> checksum_from_str (checksum_string c) = Ok c)).
    { intros e He. destruct (omap_in _ _ _ e E1 He) as (rp & _ & Ee). unfold enc_package_of_raw in Ee.
      destruct (of_option (parse_version (rp_version rp))) as [w| |] eqn:Ev; try discriminate. cbn [obind] in Ee.
      destruct (opt_outcome (from_url norm) (rp_source rp)) as [s| |] eqn:Es; try discriminate. cbn [obind] in Ee.
      destruct (opt_outcome checksum_from_str (rp_checksum rp)) as [ck| |] eqn:Ec; try discriminate. cbn [obind] in Ee.
      destruct (omap (enc_dep_from_str norm) (rp_deps rp)) as [ds| |] eqn:Ed; try discriminate. cbn [obind] in Ee.
      destruct (opt_outcome (enc_dep_from_str norm) (rp_replace rp)) as [rep| |] eqn:Er; try discriminate. cbn [obind] in Ee.
      injection Ee as <-. cbn [ep_source ep_deps ep_replace ep_version ep_checksum]. split; [split; [|exact (of_opt_parse _ _ Ev)]|split; [|split]].
      - intros e H. destruct s as [s|]; [|discriminate H]. cbn in H. injection H as <-. cbn [es_inner].
        destruct (rp_source rp) as [t|]; [|discriminate Es]. cbn [opt_outcome] in Es. destruct (from_url norm t) as [s'| |] eqn:F; try discriminate Es.
        cbn [obind] in Es. injection Es as <-. exists t. exact F.
      - intros d Hd. destruct (omap_in _ _ _ d Ed Hd) as (t & _ & Et). exact (edep_read t d Et).
      - intros d ->. destruct (rp_replace rp) as [t|]; [|discriminate Er]. cbn [opt_outcome] in Er.
        destruct (enc_dep_from_str norm t) as [d'| |] eqn:Et; try discriminate. cbn [obind] in Er. injection Er as <-. exact (edep_read t _ Et).
      - intros c ->. destruct (rp_checksum rp) as [t|]; [|discriminate Ec]. cbn [opt_outcome] in Ec.
        destruct (checksum_from_str t) as [c'| |] eqn:F; try discriminate Ec. cbn [obind] in Ec. injection Ec as <-. exact (Ck t _ F). }
    assert (Res : forall pkgs e q, (forall p, In p pkgs -> read_enc (ep_source p) /\ version_wf (ep_version p) = true) -> In e eps -> pkg_resolve pkgs e = Ok q -> read_pkg q).
    { intros pkgs e q P He Eq. destruct (Enc e He) as ([S V] & D & R & C). unfold pkg_resolve in Eq.
      destruct (omap (dep_resolve pkgs) (ep_deps e)) as [ds| |] eqn:Ed; try discriminate. cbn [obind] in Eq.
      destruct (opt_outcome (dep_resolve []) (ep_replace e)) as [rep| |] eqn:Er; try discriminate. cbn [obind] in Eq. injection Eq as <-.
      unfold read_pkg. cbn [p_source p_deps p_replace p_version p_checksum]. split; [apply inner_read; exact S|]. split; [exact V|]. split; [exact C|]. split.
      - intros d Hd. destruct (omap_in _ _ _ d Ed Hd) as (x & Hx & Ex). exact (dep_read pkgs x d P (D x Hx) Ex).
      - intros d ->. destruct (ep_replace e) as [x|]; [|discriminate Er]. cbn [opt_outcome] in Er.
        destruct (dep_resolve [] x) as [d'| |] eqn:Ex; try discriminate. cbn [obind] in Er. injection Er as <-.
        exact (dep_read [] x _ (fun p f => match f with end) (R x eq_refl) Ex). }
    intros Hp. destruct (omap_in _ _ _ p E2 Hp) as (e & He & Ee). cbv beta in Ee. destruct (is_v1 v).
    - destruct (pkg_resolve [] e) as [q| |] eqn:Eq; try discriminate. cbn [obind] in Ee. injection Ee as <-.
      destruct (Res [] e q (fun p f => match f with end) He Eq) as (A & B & _ & D & F). unfold with_checksum, read_pkg. cbn [p_source p_deps p_replace p_version p_checksum].
      split; [exact A|]. split; [exact B|]. split; [|split; assumption]. intros c. clear E2 Hp. induction (rl_metadata r) as [|[k t] m IH]; cbn [find_checksum]; [discriminate|].
      destruct (checksum_dependency norm k); try exact IH. destruct (_ && _)%bool; [|exact IH].
      destruct (checksum_from_str t) as [c'| |] eqn:Et; try discriminate. intros [= <-]. exact (Ck t _ Et).
    - exact (Res eps e p (fun q Hq => proj1 (Enc q Hq)) He Ee).
  Qed.
End Lock.

(** ** Parts *)
Ltac jfields := unfold d_obj at 1, jreq, jopt, jdef, jentries; cbn [filter map app fst snd String.eqb Ascii.eqb Bool.eqb].
Section Map.
  Context {K V : Type} (cmp : K -> K -> comparison) (L : cmp_laws cmp) (key : string -> outcome K) (val : json -> outcome V) (txt : K -> string) (out : V -> json).
  Lemma d_map_back m : StronglySorted (fun a b => cmp a b = Lt) (map fst m) -> (forall k v, In (k, v) m -> key (txt k) = Ok k /\ val (out v) = Ok v) ->
    d_map cmp key val (map (fun e => (txt (fst e), out (snd e))) m) [] = Ok m.
  Proof.
    intros S H. apply (d_map_iff cmp L key val (fun s k => key s = Ok k) (fun j v => val j = Ok v)); [reflexivity|reflexivity|]. split; [|split; [exact S|]].
    - intros s j I. apply in_map_iff in I as ([k v] & E & I). injection E as <- <-. exists k, v. exact (H k v I).
    - intros k v. split.
      + intros I. destruct (in_split _ _ I) as (a & b & ->). destruct (H k v I) as [H1 H2].
        exists (map (fun e => (txt (fst e), out (snd e))) a), (txt k), (out v), (map (fun e => (txt (fst e), out (snd e))) b).
        split; [rewrite map_app; reflexivity|]. split; [exact H1|]. split; [exact H2|]. intros s' j' I'. apply in_map_iff in I' as ([k' v'] & E & I').
        injection E as <- <-. cbn [fst snd]. destruct (H k' v') as [H1' _]; [apply in_or_app; right; right; exact I'|]. rewrite H1'. intros [= ->].
        rewrite map_app in S. clear - S I' L. induction (map fst a) as [|z l IH]; cbn [app map fst] in S; inversion S as [|? ? S' F]; subst; [|exact (IH S')].
        rewrite Forall_forall in F. specialize (F k (in_map fst _ _ I')). rewrite (proj2 (cmp_eq_iff _ L k k) eq_refl) in F. discriminate.
      + intros (l & s & j & r & E & R1 & R2 & _).
        assert (I : In (s, j) (map (fun e => (txt (fst e), out (snd e))) m)) by (rewrite E; apply in_or_app; right; left; reflexivity).
        apply in_map_iff in I as ([k' v'] & E' & I). injection E' as <- <-. destruct (H k' v' I) as [H1 H2]. congruence.
  Qed.
End Map.
Lemma nat_back n : (N.of_nat n <= u64_max)%N -> d_nat (j_nat n) = Ok n.
Proof. intros B. unfold d_nat, j_nat. rewrite parse_print_dec. rewrite (proj2 (N.leb_le _ _) B), Nat2N.id. reflexivity. Qed.
Lemma kind_str_back k : kind_of_str (warning_kind_str k) = Ok k.
Proof. destruct k; reflexivity. Qed.
Lemma severity_str_back v : severity_from_str (severity_str v) = Ok v.
Proof. destruct v; reflexivity. Qed.

Section Back.
  Context (x : externals) (print_req : version_req -> string) (read_time : string -> option gtime)
    (L : norm_laws (x_norm x)) (RS : reads_stamps read_time) (RP : reads_printed (x_req x) print_req).
  Lemma source_back s : kept_source s -> (exists t, from_url (x_norm x) t = Ok s) -> d_source_id x (j_source s) = Ok s /\ j_source s <> JNull.
  Proof.
    intros [N P] [t H]. unfold j_source. destruct (s_kind s) eqn:K; try congruence; (split; [|discriminate]);
      unfold d_source_id, d_from; cbn [d_str obind]; exact (C34_read_write_read _ t s false L H (fun _ => P)).
  Qed.
  Lemma sources_back o : kept o -> read_src (x_norm x) o -> d_opt (d_source_id x) (j_opt j_source o) = Ok o.
  Proof. intros Ke R. apply opt_back. intros s E. apply source_back; [exact (Ke s E)|exact (R s E)]. Qed.
  Lemma semver_back v : version_wf v = true -> d_semver (JStr (print_version v)) = Ok v.
  Proof. intros W. unfold d_semver, d_from. cbn [d_str obind]. rewrite (parse_print_version v W). reflexivity. Qed.
  Lemma dep_back d : kept (d_source d) -> read_dep (x_norm x) d -> d_dependency x (j_dependency d) = Ok d.
  Proof.
    intros Ke [R W]. unfold d_dependency, j_dependency. jfields. cbn [d_str obind]. rewrite (semver_back _ W). cbn [obind].
    rewrite (sources_back _ Ke R). cbn [obind]. destruct d; reflexivity.
  Qed.
  Lemma pkg_back p : kept_package p -> read_pkg (x_norm x) p -> d_pkg x (j_pkg p) = Ok p.
  Proof.
    intros (K1 & K2 & K3) (R1 & R2 & R3 & R4 & R5).
    assert (C : d_opt (d_from checksum_from_str) (j_opt (fun c => JStr (checksum_string c)) (p_checksum p)) = Ok (p_checksum p)).
    { apply opt_back. intros c E. split; [exact (R3 c E)|discriminate]. }
    assert (Rp : d_opt (d_dependency x) (j_opt j_dependency (p_replace p)) = Ok (p_replace p)).
    { apply opt_back. intros d E. split; [exact (dep_back d (K3 d E) (R5 d E))|discriminate]. }
    assert (Ds : d_list (d_dependency x) (j_list j_dependency (p_deps p)) = Ok (p_deps p)).
    { apply list_back. intros d I. exact (dep_back d (K2 d I) (R4 d I)). }
    unfold d_pkg, j_pkg. destruct (p_deps p) as [|d ds] eqn:E; jfields; cbn [d_str obind];
      rewrite (semver_back _ R2); cbn [obind]; rewrite (sources_back _ K1 R1); cbn [obind]; rewrite C; cbn [obind]; try rewrite Ds; cbn [obind]; rewrite Rp; cbn [obind];
      rewrite <- E; destruct p; reflexivity.
  Qed.

  (** *** Advisories *)
  Lemma from_required {A} t k (P : string -> A -> Prop) a : required t k (text P) a -> exists s, P s a.
  Proof. intros (v & _ & s & _ & H). exists s. exact H. Qed.
  Lemma from_optional {A} t k (P : string -> A -> Prop) o : optional t k (text P) o -> forall a, o = Some a -> exists s, P s a.
  Proof. intros H a ->. destruct H as (v & _ & s & _ & H). exists s. exact H. Qed.
  Lemma from_texts {A} (P : string -> A -> Prop) v l : texts P v l -> forall a, In a l -> exists s, P s a.
  Proof. intros (ss & _ & F). induction F as [|s b ss l H F IH]; intros a I; [destruct I|]. destruct I as [<-|I]; [exists s; exact H|exact (IH a I)]. Qed.
  Lemma from_defaulted {A} t k (P : string -> A -> Prop) l : defaulted t k (texts P) [] l -> forall a, In a l -> exists s, P s a.
  Proof. intros [(v & _ & H)|[_ ->]] a I; [exact (from_texts P v l H a I)|destruct I]. Qed.
  Lemma req_back r : (exists s, a_req x s r) -> d_req x (j_req print_req r) = Ok r.
  Proof. intros [s H]. unfold d_req, j_req, d_from. cbn [d_str obind]. rewrite (RP s r H). reflexivity. Qed.
  Lemma id_back i : (exists s, an_id s i) -> d_id (j_id i) = Ok i.
  Proof. intros [s H]. exact (id_good s i H). Qed.
  Lemma informational_back i : (exists s, informational_named s i) -> informational_from_str (informational_str i) = i.
  Proof. intros [s H]. apply informational_iff in H. injection H as <-. apply informational_good. Qed.
  Lemma metadata_back m t : says_fields x t m -> kept (m_source m) -> forall c,
    d_metadata x (j_metadata (f_meta (in_collection (mkFull m None (mkVersions [] [])) c))) = Ok (f_meta (in_collection (mkFull m None (mkVersions [] [])) c)).
  Proof.
    intros [Fid Fp Fd Fa Fr _ Fc Fk Fv Fi Fe Fs Fu Fw Fl _] Ke c. cbn [in_collection f_meta].
    unfold d_metadata, j_metadata. jfields.
    cbn [m_id m_package m_title m_description m_date m_aliases m_related m_collection m_categories m_keywords m_cvss m_informational m_references m_source m_url m_withdrawn m_license m_expect_deleted].
    rewrite (id_back _ (from_required _ _ _ _ Fid)). cbn [obind d_str].
    assert (Dt : forall d, (exists s, a_day x s d) -> d_date x (JStr d) = Ok d).
    { intros d [s H]. unfold d_date, d_from. cbn [d_str obind]. unfold a_day in H. assert (s = d) as <-; [|exact H]. unfold date_from_str in H.
      destruct (x_civil x s) as [[[y ?] ?]|]; [|discriminate]. destruct (_ && _)%bool; congruence. }
    rewrite (Dt _ (from_required _ _ _ _ Fd)). cbn [obind].
    rewrite list_back; [|intros i I; apply id_back; exact (from_defaulted _ _ _ _ Fa i I)]. cbn [obind].
    rewrite list_back; [|intros i I; apply id_back; exact (from_defaulted _ _ _ _ Fr i I)]. cbn [obind].
    rewrite opt_back; [|intros cl _; split; [destruct cl; reflexivity|discriminate]]. cbn [obind].
    rewrite list_back; [|intros g I; unfold d_from; cbn [d_str obind]; destruct (from_defaulted _ _ _ _ Fc g I) as [s Hs]; apply category_iff in Hs; injection Hs as <-; f_equal; apply category_good].
    cbn [obind]. rewrite strs_back. cbn [obind].
    rewrite opt_back; [|intros s Es; split; [destruct (from_optional _ _ _ _ Fv s Es) as [u Hu]; exact (proj1 (cvss_good u s Hu))|discriminate]]. cbn [obind].
    rewrite opt_back; [|intros i Ei; split; [unfold d_from; cbn [d_str obind]; f_equal; apply informational_back; exact (from_optional _ _ _ _ Fi i Ei)|discriminate]]. cbn [obind].
    assert (Du : forall u, (exists s, a_url x s u) -> d_url x (JStr (url_string u)) = Ok u).
    { intros u [s H]. unfold d_url, d_from. cbn [d_str obind]. rewrite (url_parse_string _ s u L H). reflexivity. }
    rewrite list_back; [|intros u I; apply Du; exact (from_defaulted _ _ _ _ Fe u I)]. cbn [obind].
    rewrite sources_back; [|exact Ke|exact (from_optional _ _ _ _ Fs)]. cbn [obind].
    rewrite opt_back; [|intros u I; split; [apply Du; exact (from_optional _ _ _ _ Fu u I)|discriminate]]. cbn [obind].
    rewrite opt_back; [|intros u I; split; [apply Dt; exact (from_optional _ _ _ _ Fw u I)|discriminate]]. cbn [obind].
    unfold d_from. cbn [d_str obind d_bool].
    assert (Li : license_from_str (license_spdx (m_license m)) = m_license m).
    { destruct Fl as [(v & _ & s & _ & H)|[_ ->]]; [|reflexivity]. apply license_iff in H. injection H as <-. apply license_good. }
    rewrite Li. reflexivity.
  Qed.
  Lemma versions_back v vs : says_versions x v vs -> d_versions x (j_versions print_req vs) = Ok vs.
  Proof.
    intros (t & -> & (pv & _ & P) & U & w & W). unfold d_versions, j_versions. jfields.
    rewrite list_back; [|intros r I; apply req_back; exact (from_texts _ _ _ P r I)]. cbn [obind].
    rewrite list_back; [|intros r I; apply req_back; exact (from_defaulted _ _ _ _ U r I)]. cbn [obind].
    rewrite W. pose proof (versions_new_is _ _ _ _ W) as ->. destruct vs; reflexivity.
  Qed.
  Lemma affects_back v a : says_affected x v a -> d_affects x (j_affects print_req a) = Ok a.
  Proof.
    intros (t & -> & _ & _ & F).
    assert (B : d_obj (fun ft => d_map path_cmp path_from_str (d_list (d_req x)) ft []) (j_functions print_req (af_functions a)) = Ok (af_functions a)).
    { unfold j_functions, d_obj. destruct F as [(fv & _ & ft & -> & _ & F & S)|[_ ->]]; [|reflexivity].
      apply (d_map_back path_cmp (list_cmp_laws _ str_cmp_laws) path_from_str (d_list (d_req x)) path_text (j_list (j_req print_req))); [exact S|].
      intros p rs I. apply F in I as (k & v' & _ & Pk & Rs). split.
      - destruct (path_good k p Pk) as (s & Es & Ps). unfold path_text. rewrite Es. exact Ps.
      - apply list_back. intros r I. apply req_back. exact (from_texts _ _ _ Rs r I). }
    unfold d_affects, j_affects. jfields. rewrite !strs_back. cbn [obind]. rewrite B. cbn [obind]. destruct a; reflexivity.
  Qed.
  Lemma advisory_back a : loaded_advisory x a -> kept (m_source (f_meta a)) ->
    d_metadata x (j_metadata (f_meta a)) = Ok (f_meta a) /\ d_versions x (j_versions print_req (f_versions a)) = Ok (f_versions a) /\
    d_opt (d_affects x) (j_opt (j_affects print_req) (f_affected a)) = Ok (f_affected a).
  Proof.
    intros (toml & data & b & c & W & H & ->) Ke. apply (C78_file x toml data b W) in H as (? & ? & ? & ? & ? & ? & ? & ? & t & _ & _ & _ & _ & _ & _ & _ & (mt & _ & F & _) & _ & _ & A & V).
    split; [exact (metadata_back (f_meta b) mt F Ke c)|]. split.
    - destruct V as (v & _ & V). exact (versions_back v _ V).
    - apply opt_back. intros af E. cbn [in_collection f_affected] in E. rewrite E in A. destruct A as (v & _ & A). split; [exact (affects_back v af A)|discriminate].
  Qed.
  Lemma vuln_back v : made_vuln x v -> kept_package (jv_package v) -> kept (m_source (jv_advisory v)) -> d_vuln x (j_vuln print_req v) = Ok v.
  Proof.
    intros [(raw & l & Hl & I) (a & A & E)] K1 K2. rewrite E in K2. destruct (advisory_back a A K2) as (M & Vs & Af).
    assert (P : d_pkg x (j_pkg (jv_package v)) = Ok (jv_package v)) by exact (pkg_back _ K1 (load_read _ raw l _ Hl I)).
    rewrite E. unfold d_vuln, j_vuln. jfields. cbn [jv_advisory jv_versions jv_affected jv_package]. rewrite M. cbn [obind]. rewrite Vs. cbn [obind].
    rewrite Af. cbn [obind]. rewrite P. reflexivity.
  Qed.
  Lemma warning_back w : made_warning x w -> kept_package (jw_package w) -> (forall m, jw_advisory w = Some m -> kept (m_source m)) ->
    d_warning x (j_warning print_req w) = Ok w.
  Proof.
    intros [(raw & l & Hl & I) C] K1 K2.
    assert (P : d_pkg x (j_pkg (jw_package w)) = Ok (jw_package w)) by exact (pkg_back _ K1 (load_read _ raw l _ Hl I)).
    destruct C as [E|(a & A & E)].
    - rewrite E. unfold d_warning, j_warning. jfields. cbn [jw_kind jw_package jw_advisory jw_affected jw_versions j_opt d_opt].
      unfold d_kind. rewrite kind_str_back. cbn [obind]. rewrite P. reflexivity.
    - rewrite E in K2. specialize (K2 _ eq_refl). destruct (advisory_back a A K2) as (M & Vs & Af).
      rewrite E. unfold d_warning, j_warning. jfields. cbn [jw_kind jw_package jw_advisory jw_affected jw_versions].
      unfold d_kind. rewrite kind_str_back. cbn [obind]. rewrite P. cbn [obind].
      rewrite opt_back; [|intros m [= <-]; split; [exact M|discriminate]]. cbn [obind]. rewrite Af. cbn [obind].
      rewrite opt_back; [|intros m [= <-]; split; [exact Vs|discriminate]]. reflexivity.
  Qed.
  Lemma settings_back s : made_settings s -> d_settings (j_settings s) = Ok s.
  Proof.
    intros [I W]. unfold d_settings, j_settings. jfields. rewrite !strs_back. cbn [obind].
    rewrite opt_back; [|intros v _; split; [apply severity_str_back|discriminate]]. cbn [obind].
    rewrite list_back; [|intros i Hi; apply id_back; exact (I i Hi)]. cbn [obind].
    rewrite list_back; [|intros i Hi; unfold d_from; cbn [d_str obind]; f_equal; apply informational_back; exact (W i Hi)]. cbn [obind]. destruct s; reflexivity.
  Qed.
End Back.
