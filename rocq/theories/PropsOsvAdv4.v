(** C69: reading an OSV document never crashes. *)
From Coq Require Import List NArith Ascii String Bool.
From Verif Require Import Base StrLib SemverModel VerText IdModel PkgModel DbModel UrlModel CvssText ScanModel AdvModel OsvModel OsvAdvModel PropsCrash.
Import ListNotations.
Local Open Scope string_scope.

Section NoCrash.
  Lemma bind_np {A B} (o : outcome A) (f : A -> outcome B) : o <> Panic -> (forall a, f a <> Panic) -> obind o f <> Panic.
  Proof. destruct o; cbn; [intros _ H; apply H|discriminate|congruence]. Qed.
  Lemma str_np j : d_str j <> Panic. Proof. destruct j; discriminate. Qed.
  Lemma from_np {A} (f : string -> outcome A) j : (forall s, f s <> Panic) -> d_from f j <> Panic.
  Proof. intros H. apply bind_np; [apply str_np|exact H]. Qed.
  Lemma req_np {A} (f : json -> outcome A) k t : (forall j, f j <> Panic) -> jreq f k t <> Panic.
  Proof. intros H. unfold jreq. destruct (jentries k t) as [|v [|? ?]]; [discriminate|apply H|discriminate]. Qed.
  Lemma def_np {A} d (f : json -> outcome A) k t : (forall j, f j <> Panic) -> jdef d f k t <> Panic.
  Proof. intros H. unfold jdef. destruct (jentries k t) as [|v [|? ?]]; [discriminate|apply H|discriminate]. Qed.
  Lemma dopt_np {A} (f : json -> outcome A) j : (forall j, f j <> Panic) -> d_opt f j <> Panic.
  Proof. intros H. unfold d_opt. destruct j; try discriminate; (apply bind_np; [apply H|discriminate]). Qed.
  Lemma jopt_np {A} (f : json -> outcome A) k t : (forall j, f j <> Panic) -> jopt f k t <> Panic.
  Proof. intros H. apply def_np. intros j. apply dopt_np. exact H. Qed.
  Lemma list_np {A} (f : json -> outcome A) j : (forall j, f j <> Panic) -> d_list f j <> Panic.
  Proof. intros H. unfold d_list. destruct j; try discriminate. apply omap_nopanic. exact H. Qed.
  Lemma obj_np {A} (f : list (string * json) -> outcome A) j : (forall t, f t <> Panic) -> d_obj f j <> Panic.
  Proof. intros H. unfold d_obj. destruct j; try discriminate. apply H. Qed.
  Lemma id_np s : id_from_str s <> Panic.
  Proof. exact (id_value_nopanic (TStr s)). Qed.
  Lemma parse2_np s : parse2 s <> Panic.
  Proof. unfold parse2. apply bind_np; [apply components_nopanic|]. intros cs. apply bind_np; [apply set_all_nopanic|]. intros v. destruct (check2 v); discriminate. Qed.
  Lemma parse3_np s : parse3 s <> Panic.
  Proof.
    unfold parse3. apply bind_np; [apply components_nopanic|]. intros [|[id ver] cs]; [discriminate|]. destruct (negb (String.eqb id "CVSS")); [discriminate|].
    apply bind_np; [destruct (String.eqb ver "3.0"); [discriminate|destruct (String.eqb ver "3.1"); discriminate]|]. intros m. apply bind_np; [apply set_all_nopanic|discriminate].
  Qed.
  Lemma parse4_np s : parse4 s <> Panic.
  Proof.
    unfold parse4. apply bind_np; [apply components_nopanic|]. intros [|[id ver] cs]; [discriminate|]. destruct (negb (String.eqb id "CVSS")); [discriminate|].
    destruct (negb (String.eqb ver "4.0")); [discriminate|]. apply bind_np; [apply set_all_nopanic|]. intros v. destruct (check4 v); discriminate.
  Qed.
  Lemma event_np j : d_event j <> Panic.
  Proof.
    unfold d_event. destruct j; try discriminate. match goal with z : list (string * json) |- _ => rename z into l end. destruct l as [|[k v] [|? ?]]; try (destruct v; discriminate); try discriminate.
    destruct v; try discriminate. repeat (match goal with |- context [if ?b then _ else _] => destruct b end; [discriminate|]). discriminate.
  Qed.
  Lemma ref_kind_np s : ref_kind_of s <> Panic.
  Proof. unfold ref_kind_of. repeat (match goal with |- context [if ?b then _ else _] => destruct b end; [discriminate|]). discriminate. Qed.
  Lemma dref_kind_np j : d_ref_kind j <> Panic.
  Proof. unfold d_ref_kind. destruct j as [|b|n|s|l0|l]; try discriminate; [apply ref_kind_np|]. destruct l as [|[k []] [|? ?]]; try discriminate. apply ref_kind_np. Qed.
  Lemma of_option_np {A} (o : option A) : of_option o <> Panic. Proof. destruct o; discriminate. Qed.
  Ltac go := repeat first
    [ discriminate | apply event_np | apply dref_kind_np
    | match goal with |- d_from _ _ <> Panic => apply from_np; intros end
    | match goal with |- obind _ _ <> Panic => apply bind_np; [|intros] end
    | apply obj_np; intros | apply req_np; intros | apply jopt_np; intros | apply def_np; intros | apply list_np; intros
    | apply str_np | apply event_np | apply dref_kind_np
    | apply id_np | apply path_nopanic | apply cvss_nopanic | apply of_option_np | apply parse2_np | apply parse3_np | apply parse4_np
    | match goal with |- context [if ?b then _ else _] => destruct b end ].
  Lemma severity_np j : d_severity j <> Panic. Proof. unfold d_severity. go. Qed.
  Lemma package_np j : d_package j <> Panic. Proof. unfold d_package. go. Qed.
  Lemma range_np j : d_range j <> Panic. Proof. unfold d_range. go. Qed.
  Lemma reference_np norm j : d_reference norm j <> Panic. Proof. unfold d_reference. go. Qed.
  Lemma eco_np j : d_eco j <> Panic. Proof. unfold d_eco, d_eco_affected. go. Qed.
  Lemma db_np j : d_db j <> Panic. Proof. unfold d_db. go. Qed.
  Lemma affected_np j : d_affected j <> Panic.
  Proof. unfold d_affected. repeat first [apply package_np|apply eco_np|apply db_np|apply range_np|progress go]. Qed.
  Lemma did_np j : d_id j <> Panic. Proof. unfold d_id. go. Qed.
End NoCrash.

(** *** Whatever the JSON value, reading it as an OSV advisory gives an advisory or an error. *)
Theorem C69_reading_never_crashes : forall norm j, osv_of_json norm j <> Panic.
Proof.
  intros norm j. unfold osv_of_json. apply obj_np. intros t.
  apply bind_np; [apply jopt_np; intros; apply from_np; intros; apply of_option_np|intros].
  apply bind_np; [apply req_np, did_np|intros]. apply bind_np; [apply req_np, str_np|intros]. apply bind_np; [apply req_np, str_np|intros].
  apply bind_np; [apply jopt_np, str_np|intros].
  apply bind_np; [apply def_np; intros; apply list_np, did_np|intros]. apply bind_np; [apply def_np; intros; apply list_np, did_np|intros].
  apply bind_np; [apply req_np, str_np|intros]. apply bind_np; [apply req_np, str_np|intros].
  apply bind_np; [apply def_np; intros; apply list_np, severity_np|intros].
  apply bind_np; [apply def_np; intros; apply list_np, affected_np|intros].
  apply bind_np; [apply def_np; intros; apply list_np, reference_np|intros].
  apply bind_np; [apply def_np; intros; apply obj_np; intros; apply jopt_np, str_np|intros]. discriminate.
Qed.
Print Assumptions C69_reading_never_crashes.
(** Three values that are read, refused and refused: the statement is about more than one outcome. *)
Example C69_never_crashes_nonvacuous :
  osv_of_json (fun s => Some s) (JStr "x") = Err /\ osv_of_json (fun s => Some s) (JObj [("id", JStr "RUSTSEC-")]) = Err /\
  exists o, osv_of_json (fun s => Some s) (JObj [("id", JStr "CVE-2020-1234"); ("modified", JStr "2020-01-01T00:00:00Z");
    ("published", JStr "2020-01-01T00:00:00Z"); ("summary", JStr "s"); ("details", JStr "d")]) = Ok o.
Proof. split; [reflexivity|]. split; [reflexivity|]. eexists. vm_compute. reflexivity. Qed.
