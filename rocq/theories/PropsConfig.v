(** C79: the configuration file of `cargo audit`. *)
From Coq Require Import List NArith Ascii String Bool Arith Lia.
From Verif Require Import Base StrLib IdModel IdProofs PkgModel DbModel LockModel AdvModel AuditModel AuditSpec LintModel LintSpec LintProofs2 DecodeSpec PropsDecode PropsDecode2
  PropsAudit PropsAudit2 ConfigModel ConfigSpec.
Import ListNotations.
Local Open Scope string_scope.

(** ** Names *)
Lemma lower_same a : same_letter a (ascii_lower a).
Proof.
  unfold ascii_lower, same_letter. destruct (N.leb_spec 65 (N_of_ascii a)) as [L|L]; cbn [andb]; [|left; reflexivity].
  destruct (N.leb_spec (N_of_ascii a) 90) as [U|U]; [|left; reflexivity].
  right; left. exists (N_of_ascii a). split; [lia|]. split; [symmetry; apply ascii_N_embedding|reflexivity].
Qed.
Lemma lower_id a n : a = ascii_of_N n -> (97 <= n <= 122)%N -> ascii_lower a = a.
Proof.
  intros -> H. unfold ascii_lower. rewrite N_ascii_embedding by lia.
  destruct (N.leb_spec 65 n); cbn [andb]; [|reflexivity]. destruct (N.leb_spec n 90); [lia|reflexivity].
Qed.
Lemma lower_of_same a b : same_letter a b -> ascii_lower a = ascii_lower b.
Proof.
  assert (U : forall n, (65 <= n <= 90)%N -> ascii_lower (ascii_of_N n) = ascii_of_N (n + 32)).
  { intros n H. unfold ascii_lower. rewrite N_ascii_embedding by lia.
    destruct (N.leb_spec 65 n); [|lia]. cbn [andb]. destruct (N.leb_spec n 90); [reflexivity|lia]. }
  intros [->|[(n & H & -> & ->)|(n & H & -> & ->)]]; [reflexivity| |].
  - rewrite (U n H). symmetry. apply (lower_id _ (n + 32)); [reflexivity|lia].
  - rewrite (U n H). apply (lower_id _ (n + 32)); [reflexivity|lia].
Qed.
Lemma lower_iff s l : to_ascii_lowercase l = l -> (to_ascii_lowercase s = l <-> same_letters s l).
Proof.
  intros F. split.
  - intros <-. clear F. induction s as [|a s IH]; cbn [to_ascii_lowercase]; constructor; [apply lower_same|exact IH].
  - intros H. rewrite <- F. clear F. induction H as [|a b s t A H IH]; [reflexivity|]. cbn [to_ascii_lowercase].
    rewrite (lower_of_same a b A), IH. reflexivity.
Qed.
Lemma severity_iff s v : severity_from_str s = Ok v <-> severity_named s v.
Proof.
  unfold severity_named. rewrite <- lower_iff by (destruct v; reflexivity). unfold severity_from_str.
  generalize (to_ascii_lowercase s) as l. intros l.
  repeat match goal with |- context [String.eqb l ?k] => destruct (String.eqb_spec l k) as [->|?] end;
    (split; [intros [= <-]; try reflexivity; try discriminate|destruct v; cbn; intros E; try reflexivity; try discriminate E; try contradiction]).
Qed.
Lemma deny_iff s d : de_deny s = Ok d <-> deny_named s d.
Proof.
  unfold deny_named, de_deny.
  repeat match goal with |- context [String.eqb s ?k] => destruct (String.eqb_spec s k) as [->|?] end;
    (split; [intros [= <-]; try reflexivity; try discriminate|destruct d; cbn; intros E; try reflexivity; try discriminate E; try contradiction]).
Qed.
Lemma format_iff s f : de_format s = Ok f <-> format_named s f.
Proof.
  unfold format_named, de_format.
  repeat match goal with |- context [String.eqb s ?k] => destruct (String.eqb_spec s k) as [->|?] end;
    (split; [intros [= <-]; try reflexivity; try discriminate|destruct f; cbn; intros E; try reflexivity; try discriminate E; try contradiction]).
Qed.
Lemma filter_iff v f : de_filter v = Ok f <-> filter_written v f.
Proof.
  unfold de_filter, filter_written. destruct v as [s|b| |l|t]; cbn [de_string].
  1: split; [intros [= <-]; reflexivity|destruct f; [intros [= ->]; reflexivity|discriminate]].
  1,2,4: cbn [de_list]; split; [discriminate|destruct f; discriminate].
  destruct (de_list de_string (TArr l)) as [ss| |] eqn:E.
  - apply strings_iff in E as (ss' & E & F). assert (X : ss' = ss).
    { clear E. induction F as [|a b l1 l2 H F IH]; [reflexivity|]. unfold is in H. subst. reflexivity. }
    subst ss'. rewrite E. split; [intros [= <-]; reflexivity|]. destruct f as [s|ss'']; [discriminate|]. intros [= M].
    f_equal. f_equal. clear - M. revert ss'' M. induction ss as [|a ss IH]; intros [|b ss'']; cbn; intros M; try discriminate; [reflexivity|].
    injection M as -> M. f_equal. exact (IH ss'' M).
  - split; [discriminate|]. destruct f as [s|ss]; [discriminate|]. intros [= ->].
    assert (X : de_list de_string (TArr (map TStr ss)) = Ok ss).
    { apply strings_iff. exists ss. split; [reflexivity|]. clear. induction ss; constructor; [reflexivity|assumption]. }
    congruence.
  - split; [discriminate|]. destruct f as [s|ss]; [discriminate|]. intros [= ->].
    assert (X : de_list de_string (TArr (map TStr ss)) = Ok ss).
    { apply strings_iff. exists ss. split; [reflexivity|]. clear. induction ss; constructor; [reflexivity|assumption]. }
    congruence.
Qed.

(** ** Sections *)
Lemma only_fields_iff ks t : only_fields ks t = true <-> only_keys ks t.
Proof.
  unfold only_fields, only_keys. rewrite forallb_forall. split.
  - intros H k v I. specialize (H (k, v) I). apply existsb_exists in H as (k' & K & E). apply String.eqb_eq in E. cbn in E. subst k'. exact K.
  - intros H [k v] I. apply existsb_exists. exists k. split; [exact (H k v I)|apply String.eqb_refl].
Qed.
Lemma section_iff {A} t k ks (f : ttable -> outcome A) d (R : ttable -> A -> Prop) a : one_each (TTab t) ->
  (forall s a, NoDup (map fst s) -> f s = Ok a <-> R s a) ->
  field_def d (de_section ks f) k t = Ok a <-> (exists s, In (k, TTab s) t /\ only_keys ks s /\ R s a) \/ (lacks t k /\ a = d).
Proof.
  intros W H. inversion W as [| | | |? N W']; subst.
  rewrite (defaulted_iff t k (de_section ks f) (fun v a => exists s, v = TTab s /\ only_keys ks s /\ R s a) d a N).
  - unfold defaulted. split.
    + intros [(v & I & s & -> & K & Q)|L]; [left; exists s; repeat split; assumption|right; exact L].
    + intros [(s & I & K & Q)|L]; [left; exists (TTab s); split; [exact I|exists s; repeat split; assumption]|right; exact L].
  - intros v b I. pose proof (W' k v I) as V. unfold de_section. destruct v as [s|b'| |l|s]; try (split; [discriminate|intros (s' & E & _); discriminate]).
    inversion V as [| | | |? Ns _]; subst.
    destruct (only_fields ks s) eqn:K.
    + rewrite (H s b Ns). split; [intros Q; exists s; split; [reflexivity|split; [apply only_fields_iff; exact K|exact Q]]|].
      intros (s' & [= <-] & _ & Q). exact Q.
    + split; [discriminate|]. intros (s' & [= <-] & K' & _). apply only_fields_iff in K'. congruence.
Qed.
Ltac reading := first
  [ apply text_iff; intros; first [reflexivity | apply severity_iff | apply format_iff]
  | apply filter_iff | apply strings_iff | apply string_iff | apply bool_iff
  | apply texts_iff; intros; first [reflexivity | apply informational_iff | apply deny_iff] ].

Lemma advisories_iff t ig inf sv : one_each (TTab t) ->
  field_def ([], None, None) de_advisories "advisories" t = Ok (ig, inf, sv) <->
  exists s, section t "advisories" s /\ only_keys ["ignore"; "informational_warnings"; "severity_threshold"] s /\
    defaulted s "ignore" (texts an_id) [] ig /\ optional s "informational_warnings" (texts informational_named) inf /\
    optional s "severity_threshold" (text severity_named) sv.
Proof.
  intros W. unfold de_advisories.
  rewrite (section_iff t "advisories" _ _ _ (fun s a => defaulted s "ignore" (texts an_id) [] (fst (fst a)) /\
    optional s "informational_warnings" (texts informational_named) (snd (fst a)) /\
    optional s "severity_threshold" (text severity_named) (snd a)) (ig, inf, sv) W).
  - cbn [fst snd]. split.
    + intros [(s & I & K & Q)|[L E]]; [exists s; split; [left; exact I|split; assumption]|].
      apply pair_equal_spec in E as [E ->]. apply pair_equal_spec in E as [-> ->].
      exists []. split; [right; split; [exact L|reflexivity]|]. split; [intros k v []|]. split; [right; split; [intros v []|reflexivity]|]. split; intros v [].
    + intros (s & [I|[L ->]] & K & Q1 & Q2 & Q3); [left; exists s; auto|]. right. split; [exact L|].
      destruct Q1 as [(? & [] & _)|[_ ->]]. destruct inf; [destruct Q2 as (? & [] & _)|]. destruct sv; [destruct Q3 as (? & [] & _)|]. reflexivity.
  - intros s [[i n] v] N. cbn [fst snd].
    rewrite <- (defaulted_iff s "ignore" (de_list de_id) (texts an_id) [] i N ltac:(intros; reading)).
    rewrite <- (optional_iff s "informational_warnings" (de_list (de_from (fun s => Ok (informational_from_str s)))) (texts informational_named) n N ltac:(intros; reading)).
    rewrite <- (optional_iff s "severity_threshold" (de_from severity_from_str) (text severity_named) v N ltac:(intros; reading)).
    rewrite obind_ok. split.
    + intros (a & E1 & H). apply obind_ok in H as (b & E2 & H). apply obind_ok in H as (c & E3 & H).
      apply (f_equal (fun o => match o with Ok a => a | _ => (i, n, v) end)) in H. cbv beta iota in H.
      apply pair_equal_spec in H as [H <-]. apply pair_equal_spec in H as [<- <-]. auto.
    + intros (E1 & E2 & E3). exists i. split; [exact E1|]. apply obind_ok. exists n. split; [exact E2|]. apply obind_ok. exists v. split; [exact E3|reflexivity].
Qed.

Lemma not_lacks {A} (t : ttable) k (R : tval -> A -> Prop) d a : ~ lacks t k -> defaulted t k R d a -> required t k R a.
Proof. intros L [Q|[L' _]]; [exact Q|contradiction]. Qed.
Lemma required_not_lacks {A} (t : ttable) k (R : tval -> A -> Prop) a : required t k R a -> ~ lacks t k.
Proof. intros (v & I & _) L. exact (L v I). Qed.
Lemma lacks_dec t k : lacks t k \/ ~ lacks t k.
Proof. destruct (tget k t) as [v|] eqn:E; [right|left; apply tget_lacks; exact E]. intros L. apply tget_lacks in L. congruence. Qed.
Lemma in_not_lacks t k v : In (k, v) t -> ~ lacks t k.
Proof. intros I L. exact (L v I). Qed.
Lemma defaulted_nil {A} k (R : tval -> A -> Prop) d a : defaulted [] k R d a <-> a = d.
Proof.
  split.
  - intros [(v & [] & _)|[_ E]]. exact E.
  - intros ->. right. split; [intros v []|reflexivity].
Qed.
Lemma optional_nil {A} k (R : tval -> A -> Prop) o : optional [] k R o <-> o = None.
Proof.
  split.
  - destruct o; [intros (v & [] & _)|reflexivity].
  - intros ->. intros v [].
Qed.
Lemma no_keys ks : only_keys ks [].
Proof. intros k v []. Qed.

Lemma database_iff t pa ur fe st : one_each (TTab t) ->
  field_def (None, None, true, false) de_database "database" t = Ok (pa, ur, fe, st) <->
  exists s, section t "database" s /\ only_keys ["path"; "url"; "fetch"; "stale"] s /\
    optional s "path" (text is) pa /\ optional s "url" (text is) ur /\
    defaulted s "fetch" flag true fe /\ defaulted s "stale" flag false st /\ (lacks s "stale" -> lacks t "database").
Proof.
  intros W. unfold de_database.
  rewrite (section_iff t "database" _ _ _ (fun s a => optional s "path" (text is) (fst (fst (fst a))) /\
    optional s "url" (text is) (snd (fst (fst a))) /\ defaulted s "fetch" flag true (snd (fst a)) /\ required s "stale" flag (snd a)) (pa, ur, fe, st) W).
  - cbn [fst snd]. split.
    + intros [(s & I & K & Q1 & Q2 & Q3 & Q4)|[L E]].
      * exists s. split; [left; exact I|]. split; [exact K|]. split; [exact Q1|]. split; [exact Q2|]. split; [exact Q3|]. split; [left; exact Q4|].
        intros L. destruct (required_not_lacks _ _ _ _ Q4 L).
      * apply pair_equal_spec in E as [E ->]. apply pair_equal_spec in E as [E ->]. apply pair_equal_spec in E as [-> ->].
        exists []. split; [right; split; [exact L|reflexivity]|]. split; [apply no_keys|]. rewrite !optional_nil, !defaulted_nil. auto.
    + intros (s & [I|[L ->]] & K & Q1 & Q2 & Q3 & Q4 & Q5).
      * left. exists s. repeat (split; [assumption|]). apply (not_lacks s "stale" flag false st); [|exact Q4]. intros L. exact (in_not_lacks _ _ _ I (Q5 L)).
      * right. split; [exact L|]. apply optional_nil in Q1, Q2. apply defaulted_nil in Q3, Q4. congruence.
  - intros s [[[p u] f] b] N. cbn [fst snd].
    rewrite <- (optional_iff s "path" de_string (text is) p N ltac:(intros; reading)).
    rewrite <- (optional_iff s "url" de_string (text is) u N ltac:(intros; reading)).
    rewrite <- (defaulted_iff s "fetch" de_bool flag true f N ltac:(intros; reading)).
    rewrite <- (required_iff s "stale" de_bool flag b N ltac:(intros; reading)).
    rewrite obind_ok. split.
    + intros (a1 & E1 & H). apply obind_ok in H as (a2 & E2 & H). apply obind_ok in H as (a3 & E3 & H). apply obind_ok in H as (a4 & E4 & H).
      apply (f_equal (fun o => match o with Ok a => a | _ => (p, u, f, b) end)) in H. cbv beta iota in H.
      apply pair_equal_spec in H as [H <-]. apply pair_equal_spec in H as [H <-]. apply pair_equal_spec in H as [<- <-]. auto.
    + intros (E1 & E2 & E3 & E4). exists p. split; [exact E1|]. apply obind_ok. exists u. split; [exact E2|]. apply obind_ok. exists f. split; [exact E3|].
      apply obind_ok. exists b. split; [exact E4|reflexivity].
Qed.
Lemma output_iff t de fo qu tr : one_each (TTab t) ->
  field_def ([], FTerminal, false, false) de_output "output" t = Ok (de, fo, qu, tr) <->
  exists s, section t "output" s /\ only_keys ["deny"; "format"; "quiet"; "show_tree"] s /\
    defaulted s "deny" (texts deny_named) [] de /\ defaulted s "format" (text format_named) FTerminal fo /\
    defaulted s "quiet" flag false qu /\ (lacks s "quiet" -> lacks t "output") /\
    ((lacks t "output" /\ tr = false) \/ (~ lacks t "output" /\ defaulted s "show_tree" flag true tr)).
Proof.
  intros W. unfold de_output.
  rewrite (section_iff t "output" _ _ _ (fun s a => defaulted s "deny" (texts deny_named) [] (fst (fst (fst a))) /\
    defaulted s "format" (text format_named) FTerminal (snd (fst (fst a))) /\ required s "quiet" flag (snd (fst a)) /\ defaulted s "show_tree" flag true (snd a)) (de, fo, qu, tr) W).
  - cbn [fst snd]. split.
    + intros [(s & I & K & Q1 & Q2 & Q3 & Q4)|[L E]].
      * exists s. split; [left; exact I|]. split; [exact K|]. split; [exact Q1|]. split; [exact Q2|]. split; [left; exact Q3|].
        split; [intros L; destruct (required_not_lacks _ _ _ _ Q3 L)|]. right. split; [exact (in_not_lacks _ _ _ I)|exact Q4].
      * apply pair_equal_spec in E as [E ->]. apply pair_equal_spec in E as [E ->]. apply pair_equal_spec in E as [-> ->].
        exists []. split; [right; split; [exact L|reflexivity]|]. split; [apply no_keys|]. rewrite !defaulted_nil. auto 10.
    + intros (s & [I|[L ->]] & K & Q1 & Q2 & Q3 & Q4 & Q5).
      * left. exists s. split; [exact I|]. split; [exact K|]. split; [exact Q1|]. split; [exact Q2|]. split.
        -- apply (not_lacks s "quiet" flag false qu); [|exact Q3]. intros L. exact (in_not_lacks _ _ _ I (Q4 L)).
        -- destruct Q5 as [[L _]|[_ Q5]]; [destruct (in_not_lacks _ _ _ I L)|exact Q5].
      * right. split; [exact L|]. apply defaulted_nil in Q1, Q2, Q3. destruct Q5 as [[_ ->]|[L' _]]; [congruence|contradiction].
  - intros s [[[p u] f] b] N. cbn [fst snd].
    rewrite <- (defaulted_iff s "deny" (de_list (de_from de_deny)) (texts deny_named) [] p N ltac:(intros; reading)).
    rewrite <- (defaulted_iff s "format" (de_from de_format) (text format_named) FTerminal u N ltac:(intros; reading)).
    rewrite <- (required_iff s "quiet" de_bool flag f N ltac:(intros; reading)).
    rewrite <- (defaulted_iff s "show_tree" de_bool flag true b N ltac:(intros; reading)).
    rewrite obind_ok. split.
    + intros (a1 & E1 & H). apply obind_ok in H as (a2 & E2 & H). apply obind_ok in H as (a3 & E3 & H). apply obind_ok in H as (a4 & E4 & H).
      apply (f_equal (fun o => match o with Ok a => a | _ => (p, u, f, b) end)) in H. cbv beta iota in H.
      apply pair_equal_spec in H as [H <-]. apply pair_equal_spec in H as [H <-]. apply pair_equal_spec in H as [<- <-]. auto.
    + intros (E1 & E2 & E3 & E4). exists p. split; [exact E1|]. apply obind_ok. exists u. split; [exact E2|]. apply obind_ok. exists f. split; [exact E3|].
      apply obind_ok. exists b. split; [exact E4|reflexivity].
Qed.
Lemma target_iff t ar os : one_each (TTab t) ->
  field_def (None, None) de_target "target" t = Ok (ar, os) <->
  exists s, section t "target" s /\ only_keys ["arch"; "os"] s /\ optional s "arch" filter_written ar /\ optional s "os" filter_written os.
Proof.
  intros W. unfold de_target.
  rewrite (section_iff t "target" _ _ _ (fun s a => optional s "arch" filter_written (fst a) /\ optional s "os" filter_written (snd a)) (ar, os) W).
  - cbn [fst snd]. split.
    + intros [(s & I & K & Q)|[L E]]; [exists s; split; [left; exact I|split; assumption]|].
      apply pair_equal_spec in E as [-> ->]. exists []. split; [right; split; [exact L|reflexivity]|]. split; [apply no_keys|]. rewrite !optional_nil. auto.
    + intros (s & [I|[L ->]] & K & Q1 & Q2); [left; exists s; auto|]. right. split; [exact L|]. apply optional_nil in Q1, Q2. congruence.
  - intros s [p u] N. cbn [fst snd].
    rewrite <- (optional_iff s "arch" de_filter filter_written p N ltac:(intros; reading)).
    rewrite <- (optional_iff s "os" de_filter filter_written u N ltac:(intros; reading)).
    rewrite obind_ok. split.
    + intros (a1 & E1 & H). apply obind_ok in H as (a2 & E2 & H).
      apply (f_equal (fun o => match o with Ok a => a | _ => (p, u) end)) in H. cbv beta iota in H. apply pair_equal_spec in H as [<- <-]. auto.
    + intros (E1 & E2). exists p. split; [exact E1|]. apply obind_ok. exists u. split; [exact E2|reflexivity].
Qed.
Lemma yanked_iff t en up : one_each (TTab t) ->
  field_def (true, true) de_yanked "yanked" t = Ok (en, up) <->
  exists s, section t "yanked" s /\ only_keys ["enabled"; "update_index"] s /\ defaulted s "enabled" flag true en /\ defaulted s "update_index" flag true up.
Proof.
  intros W. unfold de_yanked.
  rewrite (section_iff t "yanked" _ _ _ (fun s a => defaulted s "enabled" flag true (fst a) /\ defaulted s "update_index" flag true (snd a)) (en, up) W).
  - cbn [fst snd]. split.
    + intros [(s & I & K & Q)|[L E]]; [exists s; split; [left; exact I|split; assumption]|].
      apply pair_equal_spec in E as [-> ->]. exists []. split; [right; split; [exact L|reflexivity]|]. split; [apply no_keys|]. rewrite !defaulted_nil. auto.
    + intros (s & [I|[L ->]] & K & Q1 & Q2); [left; exists s; auto|]. right. split; [exact L|]. apply defaulted_nil in Q1, Q2. congruence.
  - intros s [p u] N. cbn [fst snd].
    rewrite <- (defaulted_iff s "enabled" de_bool flag true p N ltac:(intros; reading)).
    rewrite <- (defaulted_iff s "update_index" de_bool flag true u N ltac:(intros; reading)).
    rewrite obind_ok. split.
    + intros (a1 & E1 & H). apply obind_ok in H as (a2 & E2 & H).
      apply (f_equal (fun o => match o with Ok a => a | _ => (p, u) end)) in H. cbv beta iota in H. apply pair_equal_spec in H as [<- <-]. auto.
    + intros (E1 & E2). exists p. split; [exact E1|]. apply obind_ok. exists u. split; [exact E2|reflexivity].
Qed.

(** ** C79: a configuration file is accepted exactly if it says something, and what it says is the configuration. *)
Theorem C79_file_is_read_as_written : forall t c, one_each (TTab t) -> config_of_table t = Ok c <-> config_says t c.
Proof.
  intros t c W. unfold config_of_table.
  destruct (only_fields ["advisories"; "database"; "output"; "target"; "yanked"] t) eqn:K.
  - apply only_fields_iff in K. destruct c as [ig inf sv pa ur fe st de fo qu tr ar os en up]. split.
    + intros H. apply obind_ok in H as ([[ig' inf'] sv'] & E1 & H). apply obind_ok in H as ([[[pa' ur'] fe'] st'] & E2 & H).
      apply obind_ok in H as ([[[de' fo'] qu'] tr'] & E3 & H). apply obind_ok in H as ([ar' os'] & E4 & H). apply obind_ok in H as ([en' up'] & E5 & H).
      injection H as -> -> -> -> -> -> -> -> -> -> -> -> -> -> ->.
      apply (proj1 (advisories_iff t _ _ _ W)) in E1. apply (proj1 (database_iff t _ _ _ _ W)) in E2. apply (proj1 (output_iff t _ _ _ _ W)) in E3.
      apply (proj1 (target_iff t _ _ W)) in E4. apply (proj1 (yanked_iff t _ _ W)) in E5.
      constructor; assumption.
    + intros [_ E1 E2 E3 E4 E5]. cbn [cf_ignore cf_info cf_severity cf_db_path cf_db_url cf_fetch cf_stale cf_deny cf_format cf_quiet cf_show_tree cf_arch cf_os cf_yanked cf_update_index] in *.
      apply (proj2 (advisories_iff t _ _ _ W)) in E1. apply (proj2 (database_iff t _ _ _ _ W)) in E2. apply (proj2 (output_iff t _ _ _ _ W)) in E3.
      apply (proj2 (target_iff t _ _ W)) in E4. apply (proj2 (yanked_iff t _ _ W)) in E5.
      rewrite E1. cbn [obind]. rewrite E2. cbn [obind]. rewrite E3. cbn [obind]. rewrite E4. cbn [obind]. rewrite E5. reflexivity.
  - split; [discriminate|]. intros H. apply cs_keys, only_fields_iff in H. congruence.
Qed.
Print Assumptions C79_file_is_read_as_written.

(** Reading a configuration never crashes. *)
Lemma de_list_nopanic {A} (f : tval -> outcome A) v : (forall w, f w <> Panic) -> de_list f v <> Panic.
Proof.
  intros H. unfold de_list. destruct v as [| | |l|]; try discriminate. induction l as [|a l IH]; cbn [omap]; [discriminate|].
  specialize (H a). destruct (f a); cbn [obind]; [|discriminate|congruence]. destruct (omap f l); cbn [obind]; [discriminate|discriminate|congruence].
Qed.
Lemma de_from_nopanic {A} (f : string -> outcome A) v : (forall s, f s <> Panic) -> de_from f v <> Panic.
Proof. intros H. unfold de_from, de_string. destruct v; cbn [obind]; try discriminate. apply H. Qed.
Lemma field_def_nopanic {A} d (f : tval -> outcome A) k t : (forall w, f w <> Panic) -> field_def d f k t <> Panic.
Proof. intros H. unfold field_def. destruct (tget k t); [apply H|discriminate]. Qed.
Lemma field_req_nopanic {A} (f : tval -> outcome A) k t : (forall w, f w <> Panic) -> field_req f k t <> Panic.
Proof. intros H. unfold field_req. destruct (tget k t); [apply H|discriminate]. Qed.
Lemma field_opt_nopanic {A} (f : tval -> outcome A) k t : (forall w, f w <> Panic) -> field_opt f k t <> Panic.
Proof. intros H. unfold field_opt. destruct (tget k t) as [v|]; [|discriminate]. specialize (H v). destruct (f v); cbn [obind]; congruence. Qed.
Lemma obind_nopanic {A B} (o : outcome A) (f : A -> outcome B) : o <> Panic -> (forall a, f a <> Panic) -> obind o f <> Panic.
Proof. intros H F. destruct o; cbn [obind]; [apply F|discriminate|congruence]. Qed.
Lemma section_nopanic {A} ks (f : ttable -> outcome A) v : (forall t, f t <> Panic) -> de_section ks f v <> Panic.
Proof. intros H. unfold de_section. destruct v; try discriminate. destruct (only_fields ks t); [apply H|discriminate]. Qed.
Ltac nopanic := repeat first
  [ discriminate | assumption | apply id_from_str_nopanic
  | apply section_nopanic; intros | apply obind_nopanic; intros | apply field_def_nopanic; intros | apply field_opt_nopanic; intros | apply field_req_nopanic; intros
  | apply de_list_nopanic; intros | apply de_from_nopanic; intros
  | match goal with |- context [String.eqb ?s ?k] => destruct (String.eqb s k) end
  | progress unfold de_id, de_deny, de_format, severity_from_str, de_advisories, de_database, de_output, de_target, de_yanked ].
Lemma de_string_nopanic v : de_string v <> Panic. Proof. destruct v; discriminate. Qed.
Lemma de_bool_nopanic v : de_bool v <> Panic. Proof. destruct v; discriminate. Qed.
Lemma de_filter_nopanic v : de_filter v <> Panic.
Proof. unfold de_filter. destruct (de_string v); try discriminate; destruct (de_list de_string v); discriminate. Qed.
Lemma config_nopanic t : config_of_table t <> Panic.
Proof.
  unfold config_of_table. destruct (only_fields _ t); [|discriminate].
  pose proof de_string_nopanic. pose proof de_bool_nopanic. pose proof de_filter_nopanic.
  apply obind_nopanic; [nopanic; auto|]. intros [[? ?] ?].
  apply obind_nopanic; [nopanic; auto|]. intros [[[? ?] ?] ?].
  apply obind_nopanic; [nopanic; auto|]. intros [[[? ?] ?] ?].
  apply obind_nopanic; [nopanic; auto|]. intros [? ?].
  apply obind_nopanic; [nopanic; auto|]. intros [? ?]. discriminate.
Qed.
(** A misspelt key, section or value is an error, not ignored. *)
Theorem C79_anything_else_is_an_error : forall t, one_each (TTab t) -> (forall c, ~ config_says t c) <-> config_of_table t = Err.
Proof.
  intros t W. split.
  - intros H. pose proof (config_nopanic t) as P. destruct (config_of_table t) as [c| |] eqn:E; [|reflexivity|congruence].
    apply (C79_file_is_read_as_written t c W) in E. destruct (H c E).
  - intros E c H. apply (C79_file_is_read_as_written t c W) in H. congruence.
Qed.
Print Assumptions C79_anything_else_is_an_error.
Definition known_keys : list (string * list string) :=
  [("advisories", ["ignore"; "informational_warnings"; "severity_threshold"]); ("database", ["path"; "url"; "fetch"; "stale"]);
   ("output", ["deny"; "format"; "quiet"; "show_tree"]); ("target", ["arch"; "os"]); ("yanked", ["enabled"; "update_index"])].
Theorem C79_unknown_key_is_an_error : forall t, one_each (TTab t) ->
  (exists k v, In (k, v) t /\ ~ In k (map fst known_keys)) \/
  (exists k s k' v ks, In (k, TTab s) t /\ In (k', v) s /\ In (k, ks) known_keys /\ ~ In k' ks) ->
  config_of_table t = Err.
Proof.
  intros t W H. apply (C79_anything_else_is_an_error t W). intros c [K Q1 Q2 Q3 Q4 Q5].
  destruct H as [(k & v & I & U)|(k & s & k' & v & ks & I & I' & IK & U)].
  - apply U. exact (K k v I).
  - inversion W as [| | | |? N _]; subst.
    assert (X : forall s', section t k s' -> s' = s).
    { intros s' [S|[L _]]; [|destruct (L _ I)]. apply (tget_iff t k _ N) in I, S. congruence. }
    cbn in IK. destruct IK as [E|[E|[E|[E|[E|[]]]]]]; apply pair_equal_spec in E as [<- <-].
    + destruct Q1 as (s' & S & O & _). rewrite (X s' S) in O. exact (U (O _ _ I')).
    + destruct Q2 as (s' & S & O & _). rewrite (X s' S) in O. exact (U (O _ _ I')).
    + destruct Q3 as (s' & S & O & _). rewrite (X s' S) in O. exact (U (O _ _ I')).
    + destruct Q4 as (s' & S & O & _). rewrite (X s' S) in O. exact (U (O _ _ I')).
    + destruct Q5 as (s' & S & O & _). rewrite (X s' S) in O. exact (U (O _ _ I')).
Qed.
Print Assumptions C79_unknown_key_is_an_error.

(** Which file: that of the project, else that of the user, else none; never both. *)
Theorem C79_which_file : forall toml fs home c,
  load_config toml fs home = Ok c <->
  (exists text t, fs "./.cargo/audit.toml" = Some text /\ toml text = Some t /\ config_of_table t = Ok c) \/
  (exists h text t, fs "./.cargo/audit.toml" = None /\ home = Some h /\ fs (h ++ "/audit.toml") = Some text /\ toml text = Some t /\ config_of_table t = Ok c) \/
  (fs "./.cargo/audit.toml" = None /\ (forall h, home = Some h -> fs (h ++ "/audit.toml") = None) /\ c = default_config).
Proof.
  intros toml fs home c. unfold load_config, config_path, exists_file. change project_config with "./.cargo/audit.toml".
  change ("/" ++ CONFIG_FILE) with "/audit.toml". split.
  - destruct (fs "./.cargo/audit.toml") as [text|] eqn:E.
    + rewrite E. destruct (toml text) as [t|] eqn:T; [|discriminate]. intros H. left. exists text, t. auto.
    + destruct home as [h|].
      * destruct (fs (h ++ "/audit.toml")) as [text|] eqn:F.
        -- rewrite F. destruct (toml text) as [t|] eqn:T; [|discriminate]. intros H. right; left. exists h, text, t. auto.
        -- intros [= <-]. right; right. split; [reflexivity|]. split; [intros h' [= <-]; exact F|reflexivity].
      * intros [= <-]. right; right. split; [reflexivity|]. split; [intros h' E'; discriminate E'|reflexivity].
  - intros [(text & t & F & T & H)|[(h & text & t & F & -> & G & T & H)|(F & G & ->)]].
    + rewrite F, F, T. exact H.
    + rewrite F, G, G, T. exact H.
    + rewrite F. destruct home as [h|]; [|reflexivity]. rewrite (G h eq_refl). reflexivity.
Qed.
Print Assumptions C79_which_file.
(** An empty file is as good as none. *)
Theorem C79_empty_file : forall toml fs home p text, config_path fs home = Some p -> fs p = Some text -> toml text = Some [] ->
  load_config toml fs home = load_config toml (fun _ => None) home.
Proof.
  intros toml fs home p text P F T. transitivity (Ok default_config); [|destruct home; reflexivity].
  unfold load_config. rewrite P, F, T. reflexivity.
Qed.
Print Assumptions C79_empty_file.
(** A broken file stops the command with status 1 before anything is audited, whatever the command line says. *)
Theorem C79_broken_file_stops : forall checks toml fs home l w p text,
  config_path fs home = Some p -> fs p = Some text ->
  (toml text = None \/ exists t, toml text = Some t /\ one_each (TTab t) /\ forall c, ~ config_says t c) ->
  cargo_audit_files checks toml fs home l w = ([], Exit 1).
Proof.
  intros checks toml fs home l w p text P F H. unfold cargo_audit_files, load_config. rewrite P, F.
  destruct H as [->|(t & -> & W & N)]; [reflexivity|]. rewrite (proj1 (C79_anything_else_is_an_error t W) N). reflexivity.
Qed.
Print Assumptions C79_broken_file_stops.

(** End to end: the exit status of `cargo audit` with a configuration file and a command line. *)
Theorem C79_exit_status : forall checks toml fs home l w p text tb c c' truth t db lk,
  config_path fs home = Some p -> fs p = Some text -> toml text = Some tb -> one_each (TTab tb) -> config_says tb c ->
  override_config l c = Ok c' ->
  wd_located w = true -> wd_checkout w c' = Some t -> db_open t = Ok db -> wd_lockfile w = Ok lk ->
  index_answers c' w truth -> printable checks c' (db_iter db) lk ->
  (must_fail checks c' w truth (db_iter db) (lk_packages lk) -> snd (cargo_audit_files checks toml fs home l w) = Exit 1) /\
  (~ must_fail checks c' w truth (db_iter db) (lk_packages lk) -> snd (cargo_audit_files checks toml fs home l w) = Exit 0).
Proof.
  intros checks toml fs home l w p text tb c c' truth t db lk P F T W S O H1 H2 H3 H4 H5 H6.
  unfold cargo_audit_files, load_config. rewrite P, F, T, (proj2 (C79_file_is_read_as_written tb c W) S). unfold cargo_audit. rewrite O.
  exact (C26_exit_status checks c' w truth t db lk H1 H2 H3 H4 H5 H6).
Qed.
Print Assumptions C79_exit_status.

(** *** Not so: that every entry may be left out, and that the documented defaults apply.  A section [output] without [quiet] and a
    section [database] without [stale] are rejected; and dependency trees are shown by default only if there is a section
    [output] (the documentation: `show_tree`, default: true). *)
Theorem C79_entries_are_optional_refuted :
  config_of_table [("output", TTab [("deny", TArr [TStr "warnings"])])] = Err /\
  config_of_table [("database", TTab [("fetch", TBool false)])] = Err /\
  (exists c, config_of_table [("output", TTab [("deny", TArr [TStr "warnings"]); ("quiet", TBool false)])] = Ok c /\ cf_deny c = [DWarnings] /\ cf_show_tree c = true) /\
  (exists c, config_of_table [] = Ok c /\ cf_show_tree c = false).
Proof.
  split; [vm_compute; reflexivity|]. split; [vm_compute; reflexivity|].
  split; eexists; (split; [vm_compute; reflexivity|]); try split; reflexivity.
Qed.
Print Assumptions C79_entries_are_optional_refuted.

(** The example configuration file of the repository (cargo-audit/audit.toml.example). *)
Definition example_config : ttable :=
  [("advisories", TTab [("ignore", TArr [TStr "RUSTSEC-2019-0001"]); ("informational_warnings", TArr [TStr "unmaintained"]); ("severity_threshold", TStr "Low")]);
   ("database", TTab [("path", TStr "~/.cargo/advisory-db"); ("url", TStr "https://github.com/RustSec/advisory-db.git"); ("fetch", TBool true); ("stale", TBool false)]);
   ("output", TTab [("deny", TArr [TStr "unmaintained"]); ("format", TStr "terminal"); ("quiet", TBool false); ("show_tree", TBool true)]);
   ("target", TTab [("arch", TArr [TStr "x86_64"]); ("os", TStr "linux")]);
   ("yanked", TTab [("enabled", TBool true); ("update_index", TBool true)])].
Example C79_nonvacuous : one_each (TTab example_config) /\ exists c, config_says example_config c /\
  map id_string (cf_ignore c) = ["RUSTSEC-2019-0001"] /\ cf_severity c = Some SevLow /\ cf_info c = Some [IUnmaintained] /\
  cf_deny c = [DUnmaintained] /\ st_arch (report_settings c) = ["x86_64"] /\ st_os (report_settings c) = ["linux"] /\ cf_show_tree c = true.
Proof.
  assert (W : one_each (TTab example_config)) by (unfold example_config; one_each_tac). split; [exact W|].
  eexists. split; [apply (C79_file_is_read_as_written _ _ W); vm_compute; reflexivity|]. repeat split.
Qed.
Definition example_files : files := fun p => if String.eqb p "/home/u/.cargo/audit.toml" then Some "..." else None.
Example C79_end_to_end_nonvacuous :
  config_path example_files (Some "/home/u/.cargo") = Some "/home/u/.cargo/audit.toml" /\
  (exists c, load_config (fun _ => Some example_config) example_files (Some "/home/u/.cargo") = Ok c /\ cf_severity c = Some SevLow) /\
  cargo_audit_files false (fun _ => Some [("outptu", TTab [])]) example_files (Some "/home/u/.cargo") (mkCli None [] [] false false false [] [] None false false None) ex_world = ([], Exit 1) /\
  snd (cargo_audit_files false (fun _ => Some [("advisories", TTab [])]) example_files (Some "/home/u/.cargo") (mkCli None [] [] false false false [] [] None false false None) ex_world) = Exit 1 /\
  cargo_audit_files false (fun _ => Some [("advisories", TTab [])]) example_files (Some "/home/u/.cargo") (mkCli None [] [] false false false [] [] None false false None) ex_world <> ([], Exit 1).
Proof.
  split; [vm_compute; reflexivity|]. split; [eexists; split; [vm_compute; reflexivity|reflexivity]|].
  split; [vm_compute; reflexivity|]. split; [vm_compute; reflexivity|]. vm_compute. discriminate.
Qed.
