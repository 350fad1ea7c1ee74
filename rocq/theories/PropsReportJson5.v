(** C81: a case that meets the assumptions, and what does not hold. *)
From Coq Require Import List NArith ZArith Ascii String Bool Arith Lia Sorting.Sorted.
From Verif Require Import Base StrLib SemverModel OsvModel IdModel IdSpec PkgModel DbModel DbSpec PropsDb VerText UrlModel UrlSpec CvssText ScanModel PartsModel
  AdvModel MtimeModel OsvAdvModel LockModel IndexModel IndexSpec AuditModel AuditSpec PropsAudit SarifModel DecodeSpec PropsDecode2 Calendar JsonSpec PropsMtime PropsOsvAdv PropsOsvAdv2 PropsOsvAdv3
  ReportJsonModel ReportJsonSpec PropsReportJson PropsReportJson3 PropsReportJson4.
Import ListNotations.
Local Open Scope string_scope.

(** ** A reader of time stamps *)
Definition read_stamp (s : string) : option gtime :=
  let n k w := Z.of_N (value (substring k w s)) in
  let c := (day_number (n 0%nat 4%nat, value (substring 5 2 s), value (substring 8 2 s)) * 86400 + n 11%nat 2%nat * 3600 + n 14%nat 2%nat * 60 + n 17%nat 2%nat)%Z in
  let k := (n 20%nat 2%nat * 3600 + n 23%nat 2%nat * 60)%Z in
  let z := substring 19 1 s in
  if String.eqb z "Z" then Some (mkTime c 0)
  else if String.eqb z "+" then Some (mkTime (c - k) k)
  else if String.eqb z "-" then Some (mkTime (c + k) (- k)) else None.
Lemma two_chars s : String.length s = 2%nat -> exists a b, s = String a (String b "").
Proof. destruct s as [|a [|b [|]]]; try discriminate. eauto. Qed.
Lemma four_chars s : String.length s = 4%nat -> exists a b c d, s = String a (String b (String c (String d ""))).
Proof. destruct s as [|a [|b [|c [|d [|]]]]]; try discriminate. eauto. Qed.
Lemma read_stamp_reads : reads_stamps read_stamp.
Proof.
  intros [t o] s (c & z & -> & (ys & ms & ds & hs & mis & ss & Ny & Nm & Nd & Nh & Nmi & Ns & -> & _ & _ & _ & _ & Et) & Hz). cbn [t_seconds t_offset] in *.
  destruct Ny as [_ Ly], Nm as [_ Lm], Nd as [_ Ld], Nh as [_ Lh], Nmi as [_ Lmi], Ns as [_ Ls].
  apply four_chars in Ly as (y1 & y2 & y3 & y4 & ->). apply two_chars in Lm as (m1 & m2 & ->). apply two_chars in Ld as (d1 & d2 & ->).
  apply two_chars in Lh as (h1 & h2 & ->). apply two_chars in Lmi as (i1 & i2 & ->). apply two_chars in Ls as (s1 & s2 & ->).
  destruct Hz as [[-> ->]|(_ & zh & zm & [_ Lzh] & [_ Lzm] & _ & _ & Hz)].
  - unfold read_stamp. cbn [append substring String.eqb Ascii.eqb Bool.eqb]. rewrite <- Et. f_equal. f_equal. lia.
  - apply two_chars in Lzh as (a1 & a2 & ->). apply two_chars in Lzm as (b1 & b2 & ->). cbv zeta in Hz.
    destruct Hz as [[Ho ->]|[Ho ->]]; unfold read_stamp; cbn [append substring String.eqb Ascii.eqb Bool.eqb]; rewrite <- Et; f_equal; f_equal; lia.
Qed.

(** ** A printer of the requirements of the example *)
Definition print_some (r : version_req) : string :=
  match r with
  | [] => "*"
  | c :: _ => match c_op c with OpLess => "< 0.9.0" | OpGreaterEq => ">= 1.2.3, < 2.0.0" | _ => "> 2.1.0" end
  end.
Lemma reads_some : reads_printed req_of print_some.
Proof.
  intros s r. unfold req_of.
  destruct (String.eqb s "*"); [intros [= <-]; reflexivity|]. destruct (String.eqb s "< 0.9.0"); [intros [= <-]; reflexivity|].
  destruct (String.eqb s ">= 1.2.3, < 2.0.0"); [intros [= <-]; reflexivity|]. destruct (String.eqb s "> 2.1.0"); [intros [= <-]; reflexivity|]. discriminate.
Qed.

(** ** An audit: one advisory, a lockfile with the crate it is about and one that is yanked *)
Definition no_sev : cvss -> severity := fun _ => SevHigh.
Definition no_text : metadata -> string := fun _ => "".
Definition one_full : full_advisory := match full_from_str extn toml_of (data_of "x") with Ok a => a | _ => mkFull (mkMeta (mkId KRustSec None "") "" "" "" "" [] [] None [] [] None None [] None None None CcZero10 false) None (mkVersions [] []) end.
Definition one_tree : fs_tree := mkTree (Some [mkEntry "my-crate" (Some [mkFile "RUSTSEC-2024-0001.md" (Ok (to_db no_sev no_text one_full))])]) (Some []).
Definition crates_io : string := "registry+https://github.com/rust-lang/crates.io-index".
Definition raw_of (git : string) : raw_lock :=
  mkRawLock (Some 3%N)
    [mkRawPkg "app" "0.1.0" None None ["my-crate"; "old"] None;
     mkRawPkg "helper" "0.2.0" (Some git) None [] None;
     mkRawPkg "my-crate" "1.0.0" (Some crates_io) None ["helper"] None;
     mkRawPkg "old" "0.3.0" (Some crates_io) None [] None] None [] [].
Definition lock_of (git : string) : lockfile := match load (x_norm extn) (raw_of git) with Ok l => l | _ => mkLock V3 [] None [] [] end.
Definition one_truth (n : string) : entry := if String.eqb n "old" then Some (Some [("0.3.0", true)]) else Some None.
Definition one_world (git : string) : world := mkWorld true (fun _ => Some one_tree) (Ok (lock_of git)) (fun _ => Some (mkIndex false one_truth (fun _ => None))).
Definition one_config : config := mkConfig [] None None None None true false [] FJson false true None None true true.
Definition one_db : database := match db_open one_tree with Ok db => db | _ => PropsDb.ex_db end.
Definition one_all (a : advisory) : full_advisory := in_collection one_full (Some Crates).
Definition one_commit : option (string * gtime) := Some ("80e71a30", mkTime 1704107200 3600).
Definition main_branch : string := "git+https://example.org/r.git?branch=main#80e71a30".
Definition odd_branch : string := "git+https://example.org/r.git?branch=a%23b#80e71a30".
Lemma one_doc s t : toml_of s = Some t -> one_each (TTab t).
Proof. unfold toml_of. destruct (contains "keyword" s); intros [= <-]; cbn [doc map]; one_each_tac. Qed.
Lemma one_loaded : full_from_str extn toml_of (data_of "x") = Ok one_full.
Proof. vm_compute. reflexivity. Qed.
Lemma one_in_full : in_full extn no_sev no_text one_all (db_iter one_db).
Proof.
  intros a I. split; [exists toml_of, (data_of "x"), one_full, (Some Crates); split; [exact one_doc|split; [exact one_loaded|reflexivity]]|].
  assert (E : db_iter one_db = [to_db no_sev no_text (one_all a)]) by (vm_compute; reflexivity). rewrite E in I. destruct I as [I|[]]. exact I.
Qed.
Lemma one_answers git : index_answers one_config (one_world git) one_truth.
Proof. intros ix [= <-]. intros n. reflexivity. Qed.

Definition report_in (git : string) : option report := match run_audit false one_config (one_world git) with (OutJson r :: _, _) => Some r | _ => None end.
Definition json_in (git : string) : option json :=
  match report_in git with
  | Some r => match print_json print_some gregorian (full_report_of one_all (database_info_new one_db one_commit) r) with Ok j => Some j | _ => None end
  | None => None
  end.

Example C81_nonvacuous :
  norm_laws (x_norm extn) /\ reads_stamps read_stamp /\ reads_printed (x_req extn) print_some /\
  wd_located (one_world main_branch) = true /\ wd_checkout (one_world main_branch) one_config = Some one_tree /\ db_open one_tree = Ok one_db /\
  load (x_norm extn) (raw_of main_branch) = Ok (lock_of main_branch) /\ wd_lockfile (one_world main_branch) = Ok (lock_of main_branch) /\
  index_answers one_config (one_world main_branch) one_truth /\ in_full extn no_sev no_text one_all (db_iter one_db) /\ made_config one_config /\
  (forall p, In p (lk_packages (lock_of main_branch)) -> kept_package p) /\ (forall a, In a (db_iter one_db) -> kept (DbModel.a_source a)) /\
  exists j r, json_in main_branch = Some j /\ report_of_json extn read_stamp j = Ok r /\ fr_count r = 1%nat /\ fr_dependencies r = 4%nat /\
    lists_vulnerability j "RUSTSEC-2024-0001" "my-crate" "1.0.0" /\ lists_yanked j "old" "0.3.0" /\
    reach j ["database"; "last-updated"] (JStr "2024-01-01T12:06:40+01:00").
Proof.
  split; [exact visible_norm_laws|]. split; [exact read_stamp_reads|]. split; [exact reads_some|]. split; [reflexivity|]. split; [reflexivity|].
  split; [vm_compute; reflexivity|]. split; [vm_compute; reflexivity|]. split; [reflexivity|]. split; [apply one_answers|]. split; [exact one_in_full|].
  split; [split; [intros i []|discriminate]|].
  assert (KS : forall s, In s (flat_map (fun p => match p_source p with Some s => [s] | None => [] end) (lk_packages (lock_of main_branch))) -> kept_source s).
  { intros s I. vm_compute in I. destruct I as [<-|[<-|[<-|[]]]]; (split; [discriminate|]); vm_compute; auto. }
  assert (KD : forall s, In s (flat_map (fun p => flat_map (fun d => match d_source d with Some s => [s] | None => [] end) (p_deps p ++ match p_replace p with Some d => [d] | None => [] end)%list) (lk_packages (lock_of main_branch))) -> kept_source s).
  { intros s I. vm_compute in I. repeat (destruct I as [<-|I]; [split; [discriminate|]; vm_compute; auto|]). destruct I. }
  split.
  { intros p Ip. split; [|split].
    - intros s E. apply KS. apply in_flat_map. exists p. rewrite E. split; [exact Ip|left; reflexivity].
    - intros d Id s E. apply KD. apply in_flat_map. exists p. split; [exact Ip|]. apply in_flat_map. exists d. rewrite E. split; [apply in_or_app; left; exact Id|left; reflexivity].
    - intros d Ed s E. apply KD. apply in_flat_map. exists p. split; [exact Ip|]. apply in_flat_map. exists d. rewrite E, Ed. split; [apply in_or_app; right; left; reflexivity|left; reflexivity]. }
  split. { assert (E : map DbModel.a_source (db_iter one_db) = [None]) by (vm_compute; reflexivity). intros a I s Es. apply (in_map DbModel.a_source) in I. rewrite E, Es in I. destruct I as [I|[]]; discriminate. }
  do 2 eexists. split; [vm_compute; reflexivity|]. split; [vm_compute; reflexivity|]. split; [reflexivity|]. split; [reflexivity|].
  split; [|split].
  - do 2 eexists. split; [eapply reach_two; reflexivity|]. split; [left; reflexivity|]. split; [eapply reach_two; reflexivity|]. split; eapply reach_two; reflexivity.
  - do 2 eexists. split; [eapply reach_two; reflexivity|]. split; [left; reflexivity|]. split; [apply reach_one; reflexivity|]. split; [apply reach_one; reflexivity|]. split; eapply reach_two; reflexivity.
  - eapply reach_two; reflexivity.
Qed.

(** ** What does not hold *)
(** `cargo audit --json` prints a report whenever the audit succeeds: it panics for a commit made (by its own account) 24 hours or
    more off UTC. *)
Theorem C81_always_printed_refuted : exists t, valid_time t = true /\
  forall print_req r, di_updated (fr_database r) = Some t -> print_json print_req gregorian r = Panic.
Proof.
  exists (mkTime 1704107200 86400). split; [reflexivity|]. intros pr r E. apply C81_written_iff. exists (mkTime 1704107200 86400). split; [exact E|].
  unfold can_be_written. cbn [t_offset t_seconds]. lia.
Qed.
Print Assumptions C81_always_printed_refuted.
(** Every printed report is read back: a crate from crates.io that uses (by a patch) one from a git branch whose name contains ['#'],
    in a lockfile as cargo writes it, is read back as using another branch. *)
Theorem C81_every_source_refuted : exists r j r', load (x_norm extn) (raw_of odd_branch) = Ok (lock_of odd_branch) /\
  report_in odd_branch = Some r /\ json_in odd_branch = Some j /\
  report_of_json extn read_stamp j = Ok r' /\ r' <> full_report_of one_all (database_info_new one_db one_commit) r.
Proof.
  do 3 eexists. split; [vm_compute; reflexivity|]. split; [vm_compute; reflexivity|]. split; [vm_compute; reflexivity|]. split; [vm_compute; reflexivity|].
  intros E. apply (f_equal (fun r => map (fun v => map d_source (p_deps (jv_package v))) (fr_list r))) in E. vm_compute in E. discriminate.
Qed.
Print Assumptions C81_every_source_refuted.
