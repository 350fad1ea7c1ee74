(** C48: when assigning ids succeeds, reports an error or crashes. *)
From Coq Require Import List NArith Ascii String Bool Arith Lia.
From Verif Require Import Base StrLib IdModel IdSpec PkgModel DbModel DbSpec DbProofs PropsDb PartsModel AssignModel AssignSpec AssignProofs
  PropsAssign PropsAssign2.
Import ListNotations.
Local Open Scope string_scope.
Local Open Scope N_scope.
Local Infix "++" := String.append (right associativity, at level 60).

(** ** Specification.  The places the program visits, in order: a text with its place, or an entry of a collection that is
    not a directory. *)
Definition visits_in (coll : string) (es : option (list rentry)) : list (option (path * string)) :=
  match es with
  | None => []
  | Some l => flat_map (fun e => match re_files e with
                                 | None => [None]
                                 | Some fs => map (fun f => Some ((coll, re_name e, rf_name f), rf_text f)) fs
                                 end) l
  end.
Definition visits (t : rtree) : list (option (path * string)) :=
  (visits_in "crates" (rt_crates t) ++ visits_in "rust" (rt_rust t))%list.

(** Every advisory of the database has a year, and every RUSTSEC advisory a number. *)
Definition sound_entry (a : advisory) : Prop :=
  (exists y, dated y a) /\ (id_kind_of (a_id a) = KRustSec -> exists n, numbered a n).

Section Outcome.
  Context (toml : string -> option advisory) (title description : advisory -> string)
          (with_text : advisory -> string -> string -> advisory) (checks : bool).
  Notation fs_of := (fs_of toml title description with_text).
  Notation assign_ids := (assign_ids toml title description with_text checks).
  Notation draft_year := (draft_year toml).

  (** A place where the program has nothing to do, or a draft with a year and a placeholder line. *)
  Definition has_placeholder (text : string) : Prop := exists ls l, lines_in text ls /\ In l ls /\ PropsAssign2.placeholder l.
  Definition good_place (v : option (path * string)) : Prop :=
    match v with
    | None => False
    | Some (p, text) => draft_path p = true -> (exists y, draft_year text = Ok y) /\ has_placeholder text
    end.
  (** A draft whose date has no year. *)
  Definition crashing_place (v : option (path * string)) : Prop :=
    match v with None => False | Some (p, text) => draft_path p = true /\ draft_year text = Panic end.

  Lemma has_placeholder_iff text : existsb is_placeholder_line (file_lines text) = true <-> has_placeholder text.
  Proof.
    rewrite existsb_exists. split.
    - intros (l & Hl & P). exists (file_lines text), l. split; [apply lines_exist|]. split; [exact Hl|]. apply placeholder_iff. exact P.
    - intros (ls & l & L & Hl & P). rewrite (lines_in_compute _ _ L). exists l. split; [exact Hl|]. apply placeholder_iff. exact P.
  Qed.

  (** The verdict on one place. *)
  Definition verdict (v : option (path * string)) : outcome unit :=
    match v with
    | None => Err
    | Some (p, text) =>
        if draft_path p then
          match draft_year text with
          | Ok _ => if existsb is_placeholder_line (file_lines text) then Ok tt else Err
          | Err => Err
          | Panic => Panic
          end
        else Ok tt
    end.
  Fixpoint verdicts (l : list (option (path * string))) : outcome unit :=
    match l with [] => Ok tt | v :: r => let? _ := verdict v in verdicts r end.
  Lemma verdicts_app a b : verdicts (a ++ b)%list = let? _ := verdicts a in verdicts b.
  Proof. induction a as [|x r IH]; cbn [verdicts app obind]; [reflexivity|]. rewrite IH. destruct (verdict x); reflexivity. Qed.
  Lemma verdict_good v : verdict v = Ok tt <-> good_place v.
  Proof.
    destruct v as [[p text]|]; cbn [verdict good_place]; [|split; [discriminate|intros []]].
    destruct (draft_path p); [|split; [intros _ D; discriminate D|reflexivity]]. rewrite <- has_placeholder_iff.
    destruct (draft_year text) as [y| |]; [|split; [discriminate|intros H; destruct (H eq_refl) as [[? E] _]; discriminate E]..].
    destruct (existsb _ _); split; try discriminate; try reflexivity.
    - intros _ _. split; [exists y; reflexivity|reflexivity].
    - intros H. destruct (H eq_refl) as [_ E]. discriminate E.
  Qed.
  Lemma verdict_crash v : verdict v = Panic <-> crashing_place v.
  Proof.
    destruct v as [[p text]|]; cbn [verdict crashing_place]; [|split; [discriminate|intros []]].
    destruct (draft_path p); [|split; [discriminate|intros [D _]; discriminate D]].
    destruct (draft_year text) as [y| |]; [destruct (existsb _ _)| |]; split; try discriminate; try (intros [_ E]; discriminate E); auto.
  Qed.
  Lemma verdicts_good l : verdicts l = Ok tt <-> Forall good_place l.
  Proof.
    induction l as [|v r IH]; cbn [verdicts]; [split; [constructor|reflexivity]|]. split.
    - intros H. destruct (verdict v) as [[]| |] eqn:V; [|discriminate H..]. cbn [obind] in H.
      constructor; [apply verdict_good; exact V|apply IH; exact H].
    - intros H. inversion_clear H as [|? ? G F]. rewrite (proj2 (verdict_good v) G). cbn [obind]. apply IH. exact F.
  Qed.
  Lemma verdicts_crash l : verdicts l = Panic <-> exists pre v post, l = (pre ++ v :: post)%list /\ Forall good_place pre /\ crashing_place v.
  Proof.
    induction l as [|v r IH]; cbn [verdicts].
    { split; [discriminate|]. intros (pre & v & post & E & _). destruct pre; discriminate E. }
    destruct (verdict v) as [[]| |] eqn:V; cbn [obind]; split.
    - intros H. apply IH in H as (pre & w & post & -> & F & C). exists (v :: pre), w, post. split; [reflexivity|]. split; [|exact C].
      constructor; [apply verdict_good; exact V|exact F].
    - intros ([|x pre] & w & post & E & F & C); injection E as <- ->.
      + apply verdict_crash in C. congruence.
      + apply IH. exists pre, w, post. split; [reflexivity|]. split; [|exact C]. inversion_clear F; assumption.
    - discriminate.
    - intros ([|x pre] & w & post & E & F & C); injection E as <- ->.
      + apply verdict_crash in C. congruence.
      + inversion_clear F as [|? ? G _]. apply verdict_good in G. congruence.
    - intros _. exists [], v, r. split; [reflexivity|]. split; [constructor|]. apply verdict_crash. exact V.
    - reflexivity.
  Qed.

  (** With room for the numbers, the loops come to these verdicts. *)
  Definition fits (s : astate) (k : nat) : Prop := forall y, hi (s_high s) y + N.of_nat k <= u32_max.
  Lemma file_verdict coll dir f s k : fits s (S k) ->
    let r := assign_file toml checks coll dir s f in
    snd r = verdict (Some ((coll, dir, rf_name f), rf_text f)) /\ (snd r = Ok tt -> fits (fst r) k).
  Proof.
    intros F. cbv zeta. unfold assign_file, verdict. change (is_draft_name (rf_name f)) with (draft_path (coll, dir, rf_name f)).
    assert (F' : fits s k) by (intros z; specialize (F z); lia).
    destruct (draft_path (coll, dir, rf_name f)); cbn [negb fst snd]; [|split; auto].
    destruct (AssignModel.draft_year toml (rf_text f)) as [y| |]; cbn [fst snd]; [|split; [reflexivity|discriminate]..].
    assert (U : u32_succ checks (match yget y (s_high s) with Some n => n | None => 0 end) = Ok (hi (s_high s) y + 1)).
    { specialize (F y). unfold u32_succ, hi in *. match goal with |- context [?a <=? ?b] => destruct (N.leb_spec a b) end; [reflexivity|lia]. }
    rewrite U. destruct (existsb _ _); cbn [fst snd]; (split; [reflexivity|try discriminate]).
    intros _ z. cbn [s_high]. rewrite hi_put. specialize (F z). destruct (N.eqb_spec y z) as [->|_]; lia.
  Qed.
  Lemma files_verdict coll dir fs : forall s k, fits s (List.length fs + k) ->
    let r := run_list (assign_file toml checks coll dir) s fs in
    snd r = verdicts (map (fun f => Some ((coll, dir, rf_name f), rf_text f)) fs) /\ (snd r = Ok tt -> fits (fst r) k).
  Proof.
    induction fs as [|f r IH]; intros s k F; cbv zeta; cbn [run_list map verdicts List.length]; [split; auto|].
    destruct (file_verdict coll dir f s (List.length r + k) F) as [V G]. rewrite <- V.
    destruct (assign_file toml checks coll dir s f) as [s' [[]| |]]; cbn [fst snd obind] in *; [|split; [reflexivity|discriminate]..].
    exact (IH s' k (G eq_refl)).
  Qed.
  Lemma entries_verdict coll es : forall s k, fits s (List.length (flat_map (entry_texts coll) es) + k) ->
    let r := run_list (assign_entry toml checks coll) s es in
    snd r = verdicts (visits_in coll (Some es)) /\ (snd r = Ok tt -> fits (fst r) k).
  Proof.
    induction es as [|e r IH]; intros s k F; cbv zeta; cbn [run_list visits_in flat_map List.length]; [split; auto|].
    cbn [flat_map] in F. rewrite app_length in F. rewrite verdicts_app. unfold entry_texts at 1 in F.
    assert (A : assign_entry toml checks coll s e = match re_files e with None => (s, Err) | Some fs => run_list (assign_file toml checks coll (re_name e)) s fs end) by reflexivity.
    rewrite A. clear A.
    destruct (re_files e) as [fs|]; [|cbn; split; [reflexivity|discriminate]]. rewrite map_length in F.
    destruct (files_verdict coll (re_name e) fs s (List.length (flat_map (entry_texts coll) r) + k)) as [V G].
    { intros z. specialize (F z). lia. }
    rewrite <- V.
    destruct (run_list (assign_file toml checks coll (re_name e)) s fs) as [s' [[]| |]]; cbn [fst snd obind] in *;
      [|split; [reflexivity|discriminate]..].
    exact (IH s' k (G eq_refl)).
  Qed.
  Lemma collection_verdict coll es s k : fits s (List.length (collection_texts coll es) + k) ->
    let r := assign_collection toml checks coll s es in
    snd r = verdicts (visits_in coll es) /\ (snd r = Ok tt -> fits (fst r) k).
  Proof.
    destruct es as [es|]; cbn [assign_collection]; [apply entries_verdict|]. intros F. cbv zeta. cbn [fst snd]. split; [reflexivity|].
    intros _ z. specialize (F z). lia.
  Qed.

  Lemma year_ok_or_panic d : date_year d <> Err.
  Proof. unfold date_year, date_component. destruct (nth_error _ _) as [p|]; [destruct (parse_u32 p)|]; discriminate. Qed.
  Lemma highest_outcome advs : forall m, highest advs m <> Err /\ ((exists m', highest advs m = Ok m') <-> Forall sound_entry advs).
  Proof.
    induction advs as [|a r IH]; intros m; cbn [highest].
    { split; [discriminate|]. split; [constructor|eauto]. }
    pose proof (year_ok_or_panic (a_date a)) as Ne. destruct (date_year (a_date a)) as [y| |] eqn:Y; [|congruence|].
    2:{ cbn [obind]. split; [discriminate|]. split; [intros [? E]; discriminate E|]. intros F. inversion_clear F as [|? ? [[z Z] _] _].
        unfold dated in Z. congruence. }
    cbn [obind].
    assert (Go : forall m', (id_kind_of (a_id a) = KRustSec -> exists n, numbered a n) ->
      highest r m' <> Err /\ ((exists m'', highest r m' = Ok m'') <-> Forall sound_entry (a :: r))).
    { intros m' Nn. destruct (IH m') as [N1 I]. split; [exact N1|]. rewrite I. split.
      - intros F. constructor; [|exact F]. split; [exists y; exact Y|exact Nn].
      - intros F. inversion_clear F. assumption. }
    destruct (id_kind_of (a_id a)) eqn:K; try (apply Go; intros D; discriminate D).
    destruct (numerical_part (a_id a)) as [n|] eqn:Nm.
    2:{ split; [discriminate|]. split; [intros [? E]; discriminate E|]. intros F. inversion_clear F as [|? ? [_ S] _].
        destruct (S K) as (n & _ & E). congruence. }
    assert (Nn : KRustSec = KRustSec -> exists n, numbered a n) by (intros _; exists n; split; assumption).
    destruct (yget y m) as [k|]; [destruct (k <? n)|]; apply Go; exact Nn.
  Qed.

  (** The verdict of a run that prints no title. *)
  Lemma run_verdict t db : db_open (fs_of t) = Ok db -> room t db -> db_iter db <> [] ->
    (Forall sound_entry (db_iter db) -> snd (assign_ids false t) = let? _ := verdicts (visits t) in Ok None) /\
    (~ Forall sound_entry (db_iter db) -> assign_ids false t = (mkSt [] [] [], Panic)).
  Proof.
    intros Eo Rm Ne. unfold AssignModel.assign_ids. rewrite Eo. destruct (highest_outcome (db_iter db) []) as [NE HI].
    destruct (db_iter db) as [|a0 l0] eqn:Ei; [congruence|]. rewrite <- Ei in *.
    split.
    2:{ intros Ns. destruct (highest (db_iter db) []) as [m| |]; [|congruence|reflexivity]. destruct Ns. apply HI. eauto. }
    intros S. destruct (proj2 HI S) as (m & Eh). rewrite Eh. pose proof (highest_top _ _ Eh) as Top.
    assert (B : fits (mkSt m [] []) (List.length (collection_texts "crates" (rt_crates t)) + (List.length (collection_texts "rust" (rt_rust t)) + 0))).
    { intros y. cbn [s_high]. destruct (Top y) as [_ T].
      assert (hi m y + N.of_nat (List.length (texts t)) <= u32_max).
      { apply Rm. destruct T as [T|(a & Ha & _ & Na)]; [left; exact T|right; exists a; auto]. }
      unfold texts in H. rewrite app_length in H. lia. }
    destruct (collection_verdict "crates" (rt_crates t) _ _ B) as [V1 G1]. unfold visits. rewrite verdicts_app, <- V1.
    destruct (assign_collection toml checks "crates" (mkSt m [] []) (rt_crates t)) as [s1 [[]| |]]; cbn [fst snd obind] in *; [|reflexivity..].
    destruct (collection_verdict "rust" (rt_rust t) s1 0 (G1 eq_refl)) as [V2 G2]. rewrite <- V2.
    destruct (assign_collection toml checks "rust" s1 (rt_rust t)) as [s2 [[]| |]]; reflexivity.
  Qed.

  (** Without a database there is no run; with an empty one, an error. *)
  Theorem C48_without_a_database : forall g t,
    (db_open (fs_of t) = Err -> assign_ids g t = (mkSt [] [] [], Err)) /\
    (db_open (fs_of t) = Panic -> assign_ids g t = (mkSt [] [] [], Panic)) /\
    (forall db, db_open (fs_of t) = Ok db -> db_iter db = [] -> assign_ids g t = (mkSt [] [] [], Err)).
  Proof.
    intros g t. unfold AssignModel.assign_ids. split; [intros ->; reflexivity|]. split; [intros ->; reflexivity|].
    intros db -> ->. reflexivity.
  Qed.
  (** The program succeeds exactly if every advisory has a year and a number, every entry is a directory, and every draft
      has a year and a placeholder line. *)
  Theorem C48_succeeds_iff : forall t db, db_open (fs_of t) = Ok db -> room t db -> db_iter db <> [] ->
    ((exists s, assign_ids false t = (s, Ok None)) <-> Forall sound_entry (db_iter db) /\ Forall good_place (visits t)).
  Proof.
    intros t db Eo Rm Ne. destruct (run_verdict t db Eo Rm Ne) as [Yes No]. destruct (highest_outcome (db_iter db) []) as [NE HI].
    assert (D : Forall sound_entry (db_iter db) \/ ~ Forall sound_entry (db_iter db)).
    { destruct (highest (db_iter db) []) as [m| |] eqn:E; [left; apply HI; eauto|congruence|right].
      intros F. apply HI in F as [? F]. discriminate F. }
    destruct D as [S|Ns].
    - specialize (Yes S). split.
      + intros (s & E). rewrite E in Yes. cbn [snd] in Yes. split; [exact S|]. apply verdicts_good.
        destruct (verdicts (visits t)) as [[]| |]; [reflexivity|discriminate Yes..].
      + intros [_ G]. apply verdicts_good in G. rewrite G in Yes. destruct (assign_ids false t) as [s o]. cbn [snd obind] in Yes.
        exists s. rewrite Yes. reflexivity.
    - rewrite (No Ns). split; [intros (s & E); discriminate E|intros [S _]; destruct (Ns S)].
  Qed.
  (** It crashes exactly if an advisory lacks its year or number, before anything is written, or if all places up to a draft
      whose date has no year are good. *)
  Theorem C48_crashes_iff : forall t db, db_open (fs_of t) = Ok db -> room t db -> db_iter db <> [] ->
    (snd (assign_ids false t) = Panic <->
     ~ Forall sound_entry (db_iter db) \/
     exists pre v post, visits t = (pre ++ v :: post)%list /\ Forall good_place pre /\ crashing_place v) /\
    (~ Forall sound_entry (db_iter db) -> s_ops (fst (assign_ids false t)) = []).
  Proof.
    intros t db Eo Rm Ne. destruct (run_verdict t db Eo Rm Ne) as [Yes No]. destruct (highest_outcome (db_iter db) []) as [NE HI].
    assert (D : Forall sound_entry (db_iter db) \/ ~ Forall sound_entry (db_iter db)).
    { destruct (highest (db_iter db) []) as [m| |] eqn:E; [left; apply HI; eauto|congruence|right].
      intros F. apply HI in F as [? F]. discriminate F. }
    split; [|intros N; rewrite (No N); reflexivity]. destruct D as [S|Ns].
    - rewrite (Yes S). rewrite <- verdicts_crash. destruct (verdicts (visits t)) as [[]| |]; cbn [obind]; split; try discriminate; auto;
        try (intros [N|E]; [destruct (N S)|discriminate E]).
    - rewrite (No Ns). cbn [snd]. split; auto.
  Qed.
End Outcome.
Print Assumptions C48_succeeds_iff.
Print Assumptions C48_crashes_iff.

(** An id that was read and is not the placeholder has a number if it is a RUSTSEC id. *)
Lemma read_number x i : id_from_str x = Ok i -> is_placeholder i = false -> id_kind_of i = KRustSec -> exists n, numerical_part i = Some n.
Proof.
  unfold id_from_str. destruct (String.eqb x IdModel.placeholder) eqn:E; [intros H P; assert (i = id_default) as -> by congruence; discriminate P|].
  intros H P K. unfold numerical_part. rewrite P.
  assert (Y : exists y, parse_year x = Ok y /\ id_string i = x).
  { destruct (detect x); try (destruct (parse_year x) as [y| |]; cbn [obind] in H; [|discriminate H..];
      exists y; split; [reflexivity|inversion H; subst i; reflexivity]).
    all: inversion H; subst i; discriminate K. }
  destruct Y as (y & Y & ->). unfold parse_year in Y. destruct (split_on "-" x) as [|p0 [|p1 rest]]; try discriminate Y.
  destruct (parse_u32 p1) as [yr|]; [|discriminate Y]. destruct (_ && _); [|discriminate Y].
  destruct rest as [|num rest]; [discriminate Y|]. destruct (parse_u32 num) as [n|] eqn:Nn; [|discriminate Y]. destruct rest; [|discriminate Y].
  cbn. exists n. exact Nn.
Qed.

Lemma opened_numbers toml title description with_text t db a : db_open (fs_of toml title description with_text t) = Ok db -> ids_read db ->
  In a (db_iter db) -> id_kind_of (a_id a) = KRustSec -> exists n, numbered a n.
Proof.
  intros Eo Ir Ha K. destruct (Ir a Ha) as (x & Hx).
  destruct (db_open_spec _ _ Eo) as (? & ? & ? & ? & ? & ? & I). pose proof (inv_nonph db I a Ha) as P.
  destruct (read_number x (a_id a) Hx P K) as (n & Hn). exists n. split; assumption.
Qed.
(** With ids that were read from a text, only a date without a year crashes the program before it starts writing. *)
Theorem C48_only_dates_crash : forall toml title description with_text checks t db,
  db_open (fs_of toml title description with_text t) = Ok db -> room t db -> ids_read db -> db_iter db <> [] ->
  (snd (assign_ids toml title description with_text checks false t) = Panic <->
   (exists a, In a (db_iter db) /\ date_year (a_date a) = Panic) \/
   exists pre v post, visits t = (pre ++ v :: post)%list /\ Forall (good_place toml) pre /\ crashing_place toml v).
Proof.
  intros toml title description with_text checks t db Eo Rm Ir Ne.
  destruct (C48_crashes_iff toml title description with_text checks t db Eo Rm Ne) as [C _]. rewrite C.
  assert (D : ~ Forall sound_entry (db_iter db) <-> exists a, In a (db_iter db) /\ date_year (a_date a) = Panic).
  { split.
    - intros N. destruct (existsb (fun a => match date_year (a_date a) with Ok _ => false | _ => true end) (db_iter db)) eqn:E.
      + apply existsb_exists in E as (a & Ha & E). exists a. split; [exact Ha|]. pose proof (year_ok_or_panic (a_date a)).
        destruct (date_year (a_date a)); [discriminate E|congruence|reflexivity].
      + destruct N. apply Forall_forall. intros a Ha. split; [|exact (opened_numbers _ _ _ _ _ _ _ Eo Ir Ha)].
        assert (B : (match date_year (a_date a) with Ok _ => false | _ => true end) = false).
        { destruct (match date_year (a_date a) with Ok _ => false | _ => true end) eqn:B; [|reflexivity].
          rewrite <- E. symmetry. apply existsb_exists. exists a. auto. }
        unfold dated. destruct (date_year (a_date a)) as [y| |]; [eauto|discriminate B..].
    - intros (a & Ha & P) F. rewrite Forall_forall in F. destruct (F a Ha) as [[y Y] _]. unfold dated in Y. congruence. }
  rewrite D. reflexivity.
Qed.
Print Assumptions C48_only_dates_crash.

(** The hypotheses hold of the repository of [PropsAssign]: all three drafts are good. *)
Example ex_succeeds : exists db, db_open (ex_fs ex_rtree) = Ok db /\ room ex_rtree db /\ db_iter db <> [] /\ ids_read db /\
  exists s, AssignModel.assign_ids ex_toml (fun _ => "") (fun _ => "") (fun a _ _ => a) true false ex_rtree = (s, Ok None) /\
    List.length (s_done s) = 3%nat.
Proof.
  destruct (db_open (ex_fs ex_rtree)) as [db| |] eqn:E; [|vm_compute in E; discriminate E..]. exists db. split; [reflexivity|].
  assert (Edb : Ok db = db_open (ex_fs ex_rtree)) by (symmetry; exact E). vm_compute in Edb. injection Edb as ->.
  split; [apply room_decide; [vm_compute; reflexivity|vm_compute; discriminate]|]. split; [vm_compute; discriminate|].
  split; [apply read_decide; vm_compute; reflexivity|].
  eexists. split; [vm_compute; reflexivity|vm_compute; reflexivity].
Qed.
(** A draft whose date has no year, in a decoder that does not look at the date. *)
Definition undated : rtree :=
  mkRTree (Some [mkREntry "foo" (Some [mkRFile "RUSTSEC-2021-0007.md" (ex_text HEAD "RUSTSEC-2021-0007" "foo" "2021-01-01");
                                       mkRFile "RUSTSEC-0000-0000.md" (ex_text HEAD PH "foo" "2021-05-06")]);
                 mkREntry "bar" (Some [mkRFile "RUSTSEC-0000-0000.md" (ex_text HEAD PH "bar" "20210506T")])]) None.
Example ex_crashes : exists db s, db_open (ex_fs undated) = Ok db /\ room undated db /\ db_iter db <> [] /\ ids_read db /\
  AssignModel.assign_ids ex_toml (fun _ => "") (fun _ => "") (fun a _ _ => a) true false undated = (s, Panic) /\ List.length (s_done s) = 1%nat.
Proof.
  destruct (db_open (ex_fs undated)) as [db| |] eqn:E; [|vm_compute in E; discriminate E..]. exists db. eexists. split; [reflexivity|].
  assert (Edb : Ok db = db_open (ex_fs undated)) by (symmetry; exact E). vm_compute in Edb. injection Edb as ->.
  split; [apply room_decide; [vm_compute; reflexivity|vm_compute; discriminate]|]. split; [vm_compute; discriminate|].
  split; [apply read_decide; vm_compute; reflexivity|].
  split; [vm_compute; reflexivity|vm_compute; reflexivity].
Qed.
