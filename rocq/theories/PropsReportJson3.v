(** C81: the JSON report of an audit: when it is written, what it lists, and that it is read back. *)
From Coq Require Import List NArith ZArith Ascii String Bool Arith Lia Sorting.Sorted.
From Verif Require Import Base StrLib SemverModel OsvModel IdModel IdSpec IdProofs PkgModel DbModel DbSpec DbProofs PropsDb VerText UrlModel UrlSpec UrlProofs SumModel PropsSource CvssText CvssTextProofs ScanModel PartsModel
  AdvModel MtimeModel OsvAdvModel LockModel PropsLockCli AuditModel AuditSpec SarifModel ConfigModel ConfigSpec PropsConfig DecodeSpec PropsDecode JsonSpec Calendar PropsMtime PropsOsvAdv PropsOsvAdv2 PropsOsvAdv3
  ReportJsonModel ReportJsonSpec PropsReportJson PropsReportJson2.
Import ListNotations.
Local Open Scope string_scope.

(** ** Times *)
Lemma two_digits z : (0 <= z < 100)%Z -> number 2 (pad_left 2 (print_int z)) /\ value (pad_left 2 (print_int z)) = Z.to_N z.
Proof.
  intros Hz. unfold print_int. destruct (Z.ltb_spec z 0); [lia|].
  destruct (padded 2 (Z.to_N z)) as (Q1 & Q2 & Q3); [lia|change (10 ^ N.of_nat 2)%N with 100%N; lia|]. split; [split; assumption|exact Q3].
Qed.
Lemma zone_text_ok o s : zone_text o = Some s -> zone o s.
Proof.
  unfold zone_text, zone. destruct (Z.leb_spec 86400 (Z.abs o)) as [|B]; cbn [orb]; [discriminate|].
  destruct (Z.eqb_spec (Z.abs o mod 60) 0) as [M|]; cbn [negb]; [|discriminate].
  destruct (Z.eqb_spec o 0) as [->|N]; [intros [= <-]; left; split; reflexivity|].
  intros H. right. split; [exact N|].
  assert (Hh : (0 <= Z.abs o / 3600 < 24)%Z) by (split; [apply Z.div_pos; lia|apply Z.div_lt_upper_bound; lia]).
  assert (Hm : (0 <= Z.abs o / 60 mod 60 < 60)%Z) by (apply Z.mod_pos_bound; lia).
  destruct (two_digits (Z.abs o / 3600)) as [N1 V1]; [lia|]. destruct (two_digits (Z.abs o / 60 mod 60)) as [N2 V2]; [lia|].
  exists (pad_left 2 (print_int (Z.abs o / 3600))), (pad_left 2 (print_int (Z.abs o / 60 mod 60))).
  split; [exact N1|]. split; [exact N2|]. rewrite V1, V2. split; [lia|]. split; [lia|]. rewrite !Z2N.id by lia.
  assert (U : (Z.abs o / 3600 * 3600 + Z.abs o / 60 mod 60 * 60 = Z.abs o)%Z).
  { rewrite (Z.div_mod (Z.abs o) 60) at 3 by lia. rewrite M. rewrite (Z.div_mod (Z.abs o / 60) 60) at 2 by lia. rewrite Z.div_div by lia. change (60 * 60)%Z with 3600%Z. ring. }
  cbv zeta. rewrite U. destruct (Z.ltb_spec o 0); injection H as <-; [right|left]; (split; [lia|reflexivity]).
Qed.
Lemma time_text_stamp t s : time_text gregorian t = Some s -> stamp t s.
Proof.
  unfold time_text. destruct (clock gregorian _) as [c|] eqn:C; [|discriminate]. destruct (zone_text _) as [z|] eqn:Z; [|discriminate]. intros [= <-].
  exists c, z. split; [reflexivity|]. split; [exact (clock_ok _ _ C)|exact (zone_text_ok _ _ Z)].
Qed.
Lemma time_text_iff t : (exists s, time_text gregorian t = Some s) <-> can_be_written t.
Proof.
  unfold time_text, can_be_written, clock, zone_text. destruct (gregorian ((t_seconds t + t_offset t) / 86400)) as [[y mo] d]. cbn [fst].
  assert (M : Z.eqb (Z.abs (t_offset t) mod 60) 0 = true <-> (60 | t_offset t)%Z).
  { rewrite Z.eqb_eq. rewrite Z.mod_divide by lia. apply Z.divide_abs_r. }
  destruct (Z.leb_spec 0 y); cbn [andb]; [|split; [intros [? [=]]|lia]].
  destruct (Z.leb_spec y 9999); [|split; [intros [? [=]]|lia]].
  destruct (Z.leb_spec 86400 (Z.abs (t_offset t))); cbn [orb]; [split; [intros [? [=]]|lia]|].
  destruct (Z.eqb (Z.abs (t_offset t) mod 60) 0); cbn [negb].
  - split; [intros _; split; [lia|split; [lia|apply M; reflexivity]]|]. intros _. destruct (Z.eqb (t_offset t) 0); eexists; reflexivity.
  - split; [intros [? [=]]|]. intros (_ & _ & D). apply M in D. discriminate.
Qed.

(** ** When it is written *)
(** *** C81: the report is printed, or the process panics; it is printed exactly if the time of the advisory database's last commit
    can be written. *)
Theorem C81_written_iff : forall print_req r,
  ((exists j, print_json print_req gregorian r = Ok j) <-> (forall t, di_updated (fr_database r) = Some t -> can_be_written t)) /\
  (print_json print_req gregorian r = Panic <-> exists t, di_updated (fr_database r) = Some t /\ ~ can_be_written t).
Proof.
  intros pr r. unfold print_json, report_to_json, j_database. destruct (di_updated (fr_database r)) as [t|].
  - pose proof (time_text_iff t) as T. destruct (time_text gregorian t) as [s|]; cbn [obind].
    + assert (C : can_be_written t) by (apply T; exists s; reflexivity). split; split.
      * intros _ u [= <-]. exact C.
      * intros _. eexists. reflexivity.
      * discriminate.
      * intros (u & [= <-] & N). destruct (N C).
    + assert (C : ~ can_be_written t) by (intros C; apply T in C as [? [=]]). split; split.
      * intros [? [=]].
      * intros H. destruct (C (H t eq_refl)).
      * intros _. exists t. split; [reflexivity|exact C].
      * reflexivity.
  - cbn [obind]. split; split.
    + intros _ u [=].
    + intros _. eexists. reflexivity.
    + discriminate.
    + intros (u & [=] & _).
Qed.
Print Assumptions C81_written_iff.
(** The time is written as [YYYY-MM-DDThh:mm:ss] with its offset; the other members of [database] and [lockfile] too. *)
Definition only_here (t : members) k v : jentries k t = [v] -> only t k v := proj1 (jentries_one k t v).
Theorem C81_header : forall print_req r j, print_json print_req gregorian r = Ok j ->
  (exists s, reach j ["database"; "advisory-count"] (JNum s) /\ s = print_dec (N.of_nat (di_count (fr_database r)))) /\
  (exists s, reach j ["lockfile"; "dependency-count"] (JNum s) /\ s = print_dec (N.of_nat (fr_dependencies r))) /\
  (exists s, reach j ["vulnerabilities"; "count"] (JNum s) /\ s = print_dec (N.of_nat (fr_count r))) /\
  reach j ["vulnerabilities"; "found"] (JBool (fr_found r)) /\
  match di_commit (fr_database r) with Some c => reach j ["database"; "last-commit"] (JStr c) | None => reach j ["database"; "last-commit"] JNull end /\
  match di_updated (fr_database r) with
  | Some t => exists s, reach j ["database"; "last-updated"] (JStr s) /\ stamp t s
  | None => reach j ["database"; "last-updated"] JNull
  end.
Proof.
  intros pr r j H. unfold print_json, report_to_json, j_database in H.
  assert (P : forall t k v w, jentries k t = [w] -> reach w [] v -> reach (JObj t) [k] v).
  { intros t k v w E R. exists t, w. split; [reflexivity|]. split; [apply only_here; exact E|exact R]. }
  assert (PP : forall t k k' v u, jentries k t = [JObj u] -> jentries k' u = [v] -> reach (JObj t) [k; k'] v).
  { intros t k k' v u E E'. exists t, (JObj u). split; [reflexivity|]. split; [apply only_here; exact E|]. apply (P u k' v v E'). reflexivity. }
  destruct (di_updated (fr_database r)) as [t|] eqn:U.
  - destruct (time_text gregorian t) as [s|] eqn:T; cbn [obind] in H; [|discriminate]. injection H as <-.
    split; [eexists; split; [eapply PP; reflexivity|reflexivity]|]. split; [eexists; split; [eapply PP; reflexivity|reflexivity]|].
    split; [eexists; split; [eapply PP; reflexivity|reflexivity]|]. split; [eapply PP; reflexivity|].
    split; [destruct (di_commit (fr_database r)); eapply PP; reflexivity|]. exists s. split; [eapply PP; reflexivity|exact (time_text_stamp t s T)].
  - cbn [obind] in H. injection H as <-.
    split; [eexists; split; [eapply PP; reflexivity|reflexivity]|]. split; [eexists; split; [eapply PP; reflexivity|reflexivity]|].
    split; [eexists; split; [eapply PP; reflexivity|reflexivity]|]. split; [eapply PP; reflexivity|].
    split; [destruct (di_commit (fr_database r)); eapply PP; reflexivity|]. eapply PP; reflexivity.
Qed.
Print Assumptions C81_header.

(** ** Reading it back *)
(** *** C81: a report made of loaded advisories, loaded packages and valid settings is read back as it was, provided the sources
    in it can be written (C34). *)
Theorem C81_reads_back : forall x print_req read_time r j, norm_laws (x_norm x) -> reads_stamps read_time -> reads_printed (x_req x) print_req ->
  made x r -> kept_report r -> print_json print_req gregorian r = Ok j -> report_of_json x read_time j = Ok r.
Proof.
  intros x pr rt r j L RS RP [Mv Mw Mk Ms (S1 & S2 & S3)] [K1 K2] H.
  assert (Lst : d_list (d_vuln x) (j_list (j_vuln pr) (fr_list r)) = Ok (fr_list r)).
  { apply list_back. intros v I. destruct (K1 v I). apply vuln_back; auto. }
  assert (Wn : d_map kind_cmp kind_of_str (d_list (d_warning x)) (map (fun e => (warning_kind_str (fst e), j_list (j_warning pr) (snd e))) (fr_warnings r)) [] = Ok (fr_warnings r)).
  { apply (d_map_back kind_cmp kind_cmp_laws kind_of_str (d_list (d_warning x)) warning_kind_str (j_list (j_warning pr))); [exact Mk|].
    intros k ws I. split; [apply kind_str_back|]. apply list_back. intros w Iw. destruct (K2 k ws w I Iw). apply warning_back; eauto. }
  unfold print_json, report_to_json in H. destruct (j_database gregorian (fr_database r)) as [d| |] eqn:D; cbn [obind] in H; try discriminate. injection H as <-.
  assert (Db : d_database rt d = Ok (fr_database r)).
  { unfold j_database in D. destruct (fr_database r) as [n c u]. cbn [di_count di_commit di_updated] in *. destruct u as [t|].
    - destruct (time_text gregorian t) as [s|] eqn:T; cbn [obind] in D; [|discriminate]. injection D as <-.
      unfold d_database. jfields. rewrite (nat_back n S1). cbn [obind]. rewrite opt_back; [|intros s0 _; split; [reflexivity|discriminate]]. cbn [obind].
      unfold d_opt, d_from. cbn [d_str obind]. rewrite (RS t s (time_text_stamp t s T)). reflexivity.
    - cbn [obind] in D. injection D as <-. unfold d_database. jfields. rewrite (nat_back n S1). cbn [obind].
      rewrite opt_back; [|intros s0 _; split; [reflexivity|discriminate]]. reflexivity. }
  unfold report_of_json. jfields. rewrite Db. cbn [obind]. cbn [d_obj filter map fst snd String.eqb Ascii.eqb Bool.eqb].
  rewrite (nat_back _ S2). cbn [obind]. rewrite (settings_back _ Ms). cbn [obind d_bool]. rewrite (nat_back _ S3). cbn [obind]. rewrite Lst. cbn [obind fst snd].
  rewrite Wn. cbn [obind]. destruct r; reflexivity.
Qed.
Print Assumptions C81_reads_back.
(** Hence different reports are written differently. *)
Theorem C81_loses_nothing : forall x print_req read_time r r' j, norm_laws (x_norm x) -> reads_stamps read_time -> reads_printed (x_req x) print_req ->
  made x r -> kept_report r -> made x r' -> kept_report r' ->
  print_json print_req gregorian r = Ok j -> print_json print_req gregorian r' = Ok j -> r = r'.
Proof.
  intros x pr rt r r' j L RS RP M K M' K' H H'. pose proof (C81_reads_back x pr rt r j L RS RP M K H). pose proof (C81_reads_back x pr rt r' j L RS RP M' K' H'). congruence.
Qed.
Print Assumptions C81_loses_nothing.
