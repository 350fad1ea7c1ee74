(** C78, concrete cases. *)
From Coq Require Import List NArith ZArith Ascii String Bool Arith Lia Sorting.Sorted Sorting.Permutation.
From Verif Require Import Base StrLib SemverModel OsvModel IdModel PkgModel DbModel UrlModel CvssText ScanModel PartsModel AdvModel
  LintModel LintSpec LintProofs2 DecodeSpec PropsDecode PropsOsvAdv PropsOsvAdv2.
Import ListNotations.
Local Open Scope string_scope.

Ltac one_each_tac :=
  lazymatch goal with
  | |- one_each (TStr _) => constructor
  | |- one_each (TBool _) => constructor
  | |- one_each TOther => constructor
  | |- one_each (TArr _) =>
      apply oe_arr; let v := fresh in let I := fresh in
      intros v I; cbn in I;
      repeat match type of I with
             | _ \/ _ => destruct I as [I|I]; [subst v; one_each_tac|]
             | False => destruct I
             end
  | |- one_each (TTab _) =>
      apply oe_tab;
      [cbn; repeat (constructor; [cbn; intuition discriminate|]); constructor
      |let k := fresh in let v := fresh in let I := fresh in
       intros k v I; cbn in I;
       repeat match type of I with
              | _ \/ _ => destruct I as [I|I]; [apply (f_equal snd) in I; cbn in I; subst v; one_each_tac|]
              | False => destruct I
              end]
  end.
Definition full_doc : ttable :=
  [("versions", TTab [("unaffected", TArr [TStr "< 0.9.0"]); ("patched", TArr [TStr ">= 1.2.3, < 2.0.0"; TStr "> 2.1.0"])]);
   ("metadata", TTab [("anything", TOther)]);
   ("affected", TTab [("functions", TTab [("my_crate::read", TArr [TStr "< 0.9.0"]); ("my_crate::a::b", TArr [TStr "*"])]); ("os", TArr [TStr "linux"])]);
   ("advisory", TTab [("withdrwn", TStr "2024-03-09"); ("collection", TStr "crates"); ("license", TStr "CC-BY-4.0"); ("expect-deleted", TBool true);
                      ("package", TStr "my-crate"); ("id", TStr "RUSTSEC-2024-0001"); ("date", TStr "2024-03-09");
                      ("categories", TArr [TStr "memory-corruption"; TStr "odd"]); ("informational", TStr "unsound");
                      ("aliases", TArr [TStr "CVE-2024-12345"]); ("related", TArr [TStr "GHSA-aaaa-bbbb-cccc"]);
                      ("cvss", TStr "CVSS:3.1/AV:N/AC:L/PR:N/UI:N/S:U/C:H/I:N/A:N"); ("url", TStr "https://github.com/a/b/issues/7");
                      ("references", TArr [TStr "https://b.example/"; TStr "https://a.example/"])])].
(** A document in an unusual order with keys of no meaning is read; the functions come sorted. *)
Example full_doc_read : one_each (TTab full_doc) /\
  exists a, decode_advisory extn full_doc = Ok a /\ says extn full_doc a /\
    m_license (f_meta a) = CcBy40 /\ m_withdrawn (f_meta a) = None /\ m_categories (f_meta a) = [MemoryCorruption; CatOther "odd"] /\
    List.length (patched (f_versions a)) = 2 /\ List.length (unaffected (f_versions a)) = 1 /\
    option_map (fun f => map fst (af_functions f)) (f_affected a) = Some [["my_crate"; "a"; "b"]; ["my_crate"; "read"]].
Proof.
  assert (W : one_each (TTab full_doc)) by (unfold full_doc; one_each_tac). split; [exact W|].
  eexists. split; [vm_compute; reflexivity|]. split; [|repeat split].
  apply (C78_document extn full_doc); [exact W|]. vm_compute; reflexivity.
Qed.
(** Two documents that differ in the order of their tables and entries and in keys of no meaning. *)
Definition full_doc' : ttable :=
  [("advisory", TTab [("id", TStr "RUSTSEC-2024-0001"); ("package", TStr "my-crate"); ("date", TStr "2024-03-09"); ("nonsense", TBool false)]);
   ("versions", TTab [("patched", TArr [TStr "> 2.1.0"]); ("note", TOther)])].
Definition full_doc'' : ttable :=
  [("versions", TTab [("patched", TArr [TStr "> 2.1.0"])]);
   ("advisory", TTab [("date", TStr "2024-03-09"); ("package", TStr "my-crate"); ("id", TStr "RUSTSEC-2024-0001")])].
Example similar_docs : one_each (TTab full_doc') /\ one_each (TTab full_doc'') /\ similar full_doc' full_doc'' /\
  exists a, decode_advisory extn full_doc' = Ok a.
Proof.
  split; [unfold full_doc'; one_each_tac|]. split; [unfold full_doc''; one_each_tac|]. split.
  - split; [|split; [|split]].
    + intros v I. cbn in I. destruct I as [I|[I|[]]]; [|discriminate]. apply (f_equal snd) in I; cbn in I. subst v.
      eexists. split; [right; left; reflexivity|]. left. do 2 eexists. split; [reflexivity|]. split; [reflexivity|].
      intros k v K. cbn in K.
      repeat (destruct K as [<-|K]; [cbn; split; intuition (try congruence)|]). destruct K.
    + intros v I. cbn in I. destruct I as [I|[I|[]]]; [discriminate|]. apply (f_equal snd) in I; cbn in I. subst v.
      eexists. split; [left; reflexivity|]. left. do 2 eexists. split; [reflexivity|]. split; [reflexivity|].
      intros k v K. cbn in K.
      repeat (destruct K as [<-|K]; [cbn; split; intuition (try congruence)|]). destruct K.
    + intros v I. cbn in I. intuition discriminate.
    + intros _ v I. cbn in I. intuition discriminate.
  - eexists. vm_compute. reflexivity.
Qed.
(** A whole file. *)
Example file_read : (forall s t, toml_of s = Some t -> one_each (TTab t)) /\
  exists a, full_from_str extn toml_of (data_of "x") = Ok a /\ m_title (f_meta a) = "Reads too far" /\ m_description (f_meta a) = "By one byte.".
Proof.
  split.
  - intros s t. unfold toml_of. destruct (contains "keyword" s); intros H; apply (f_equal (fun o => match o with Some z => z | None => t end)) in H;
      cbv beta iota in H; subst t; cbn; one_each_tac.
  - eexists. split; [vm_compute; reflexivity|]. split; reflexivity.
Qed.
(** The title cannot be given in the front matter as well, and [patched] cannot be left out. *)
Example refused :
  decode_advisory extn [("advisory", TTab [("id", TStr "RUSTSEC-2024-0001"); ("package", TStr "my-crate"); ("date", TStr "2024-03-09")]); ("versions", TTab [])] = Err /\
  decode_advisory extn [("advisory", TTab [("id", TStr "RUSTSEC-2024-0001"); ("package", TStr "my-crate"); ("date", TStr "2024-03-09"); ("collection", TStr "Crates")]);
    ("versions", TTab [("patched", TArr [])])] = Err.
Proof. split; vm_compute; reflexivity. Qed.
Print Assumptions C78_document.
Print Assumptions C78_file.
Print Assumptions C78_order_and_other_keys.
Print Assumptions C78_any_order.
