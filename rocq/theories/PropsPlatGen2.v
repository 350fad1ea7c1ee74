(** Property C88: the files the generator of the `platforms` tables writes. *)
From Coq Require Import List NArith Ascii String Bool Arith Lia Sorted.
From Verif Require Import Base StrLib IdModel OsvAdvModel SortProofs PartsModel ConfigModel AssignModel PlatGenModel PlatGenSpec PropsPlatGen PropsAudit2.
Import ListNotations.
Local Open Scope string_scope.

(** ** Writing *)
Lemma andthen_ok a b s : andthen a b = (s, Ok tt) <-> exists x y, a = (x, Ok tt) /\ b = (y, Ok tt) /\ s = x ++ y.
Proof.
  unfold andthen. destruct a as [x [[]| |]], b as [y o]; cbn [fst snd]; split.
  - intros [= <- ->]. exists x, y. auto.
  - intros (x' & y' & [= ->] & [= -> ->] & ->). reflexivity.
  - discriminate.
  - intros (x' & y' & H & _). discriminate H.
  - discriminate.
  - intros (x' & y' & H & _). discriminate H.
Qed.
Lemma computing_ok {A} (o : outcome A) k s : computing o k = (s, Ok tt) <-> exists v, o = Ok v /\ k v = (s, Ok tt).
Proof.
  unfold computing. destruct o as [v| |]; cbn [failing].
  - split; [intros H; now exists v|]. intros (v' & [= <-] & H). exact H.
  - split; [discriminate|]. intros (v & H & _). discriminate H.
  - split; [discriminate|]. intros (v & H & _). discriminate H.
Qed.
Lemma emit_ok x s : emit x = (s, Ok tt) <-> s = x.
Proof. unfold emit. split; [now intros [= <-]|now intros ->]. Qed.
Definition concat_map {A} (f : A -> string) (l : list A) : string := String.concat "" (map f l).
Lemma concat_cons x l : String.concat "" (x :: l) = x ++ String.concat "" l.
Proof. destruct l; cbn [String.concat]; [symmetry; apply sapp_nil_r|reflexivity]. Qed.
Lemma each_ok {A} (f : A -> writing) l s :
  each f l = (s, Ok tt) <-> exists parts, Forall2 (fun x p => f x = (p, Ok tt)) l parts /\ s = String.concat "" parts.
Proof.
  revert s. induction l as [|x l IH]; intros s; cbn [each].
  - rewrite emit_ok. split; [intros ->; exists []; split; [constructor|reflexivity]|]. intros (ps & H & ->). inversion H. reflexivity.
  - rewrite andthen_ok. split.
    + intros (a & b & Ha & Hb & ->). apply IH in Hb as (ps & F & ->). exists (a :: ps). split; [now constructor|].
      rewrite concat_cons. reflexivity.
    + intros (ps & F & ->). inversion F as [|? p ? ps' Hp Hps]; subst. exists p, (String.concat "" ps').
      split; [exact Hp|]. split; [|apply concat_cons]. apply IH. now exists ps'.
Qed.
Lemma each_emit {A} (g : A -> string) l s : each (fun x => emit (g x)) l = (s, Ok tt) <-> s = concat_map g l.
Proof.
  rewrite each_ok. split.
  - intros (ps & F & ->). unfold concat_map. f_equal. induction F as [|x p l ps E F IH]; [reflexivity|].
    apply emit_ok in E. cbn. congruence.
  - intros ->. exists (map g l). split; [|reflexivity]. induction l as [|x l IH]; cbn; constructor; [reflexivity|exact IH].
Qed.
Lemma lines_app a b : lines (a ++ b)%list = lines a ++ lines b.
Proof. induction a as [|x a IH]; cbn [app lines]; [reflexivity|]. rewrite IH, sapp_assoc. reflexivity. Qed.
Lemma lines_map {A} (g : A -> string) l : lines (map g l) = concat_map (fun x => g x ++ String nl "") l.
Proof.
  unfold concat_map. induction l as [|x l IH]; [reflexivity|]. cbn [map lines]. rewrite concat_cons, IH, sapp_assoc. reflexivity.
Qed.
Lemma lines_concat {A} (g : A -> list string) l : lines (List.concat (map g l)) = concat_map (fun x => lines (g x)) l.
Proof.
  unfold concat_map. induction l as [|x l IH]; [reflexivity|]. cbn [map List.concat]. rewrite lines_app, concat_cons, IH. reflexivity.
Qed.

(** ** Values *)
Lemma or_panic_ok {A} (o : option A) v : or_panic o = Ok v <-> o = Some v.
Proof. destruct o; cbn; split; congruence. Qed.
Lemma distinct_iff key infos values :
  distinct_values key infos = Ok values
  <-> values_of key infos values /\ forall info, In info infos -> exists v, lookup_key info key = Some v.
Proof.
  assert (S : forall l, StronglySorted (fun a b => str_cmp a b = Lt) (dedup str_cmp (sort_list str_cmp l))).
  { intros l. apply (sort_set_sorted str_cmp str_cmp_laws). }
  assert (M : forall l x, In x (dedup str_cmp (sort_list str_cmp l)) <-> In x l).
  { intros l x. apply (sort_set_in str_cmp str_cmp_laws). }
  unfold distinct_values, values_of. split.
  - destruct (omap _ infos) as [vs| |] eqn:E; cbn [obind]; intros H; try discriminate H. injection H as <-.
    split; [split; [apply S|]|].
    + intros v. rewrite M. rewrite (omap_in _ _ _ v E). split; intros (i & I & H); exists i; (split; [exact I|]); apply or_panic_ok; exact H.
    + intros i I. assert (X : exists y, or_panic (lookup_key i key) = Ok y).
      { apply (proj1 (omap_ok_iff _ infos) (ex_intro _ vs E)). exact I. }
      destruct X as [y X]. exists y. apply or_panic_ok. exact X.
  - intros [[Sv Mv] H].
    assert (X : exists vs, omap (fun t => or_panic (lookup_key t key)) infos = Ok vs).
    { apply omap_ok_iff. intros i I. destruct (H i I) as [v Hv]. exists v. apply or_panic_ok. exact Hv. }
    destruct X as [vs E]. rewrite E. cbn [obind]. f_equal.
    apply (strict_unique str_cmp str_cmp_laws); [apply S|exact Sv|].
    intros x. rewrite M, Mv, (omap_in _ _ _ x E).
    split; intros (i & I & K); exists i; (split; [exact I|]); apply or_panic_ok; exact K.
Qed.

(** ** Variant names *)
(** Nothing but underscores. *)
Definition blank_name (v : string) : bool := str_forall (Ascii.eqb "_") v.
Lemma lower_blank v : str_forall (Ascii.eqb "_") (to_ascii_lowercase v) = str_forall (Ascii.eqb "_") v.
Proof.
  induction v as [|a v IH]; [reflexivity|]. cbn [to_ascii_lowercase str_forall]. rewrite IH. f_equal.
  destruct a as [[|] [|] [|] [|] [|] [|] [|] [|]]; reflexivity.
Qed.
Lemma titlecase_empty b s : titlecase b s = "" <-> str_forall (Ascii.eqb "_") s = true.
Proof.
  revert b. induction s as [|a s IH]; intros b; [now split|]. cbn [titlecase str_forall].
  rewrite (Ascii.eqb_sym "_" a). destruct (Ascii.eqb a "_"); [apply IH|]. cbn [andb].
  split; [|discriminate]. destruct (b && is_dig a); [discriminate|]. destruct (b && is_lower a); discriminate.
Qed.
Lemma app_nonempty a b : b <> "" -> a ++ b <> "".
Proof. destruct a; [auto|discriminate]. Qed.
Lemma variant_empty v : variant_name v = "" <-> v <> "" /\ blank_name v = true.
Proof.
  unfold variant_name, blank_name. destruct (lookup_key special_names (to_ascii_lowercase v)) as [n|] eqn:E.
  - assert (N : n <> "" /\ (to_ascii_lowercase v = "" \/ str_forall (Ascii.eqb "_") (to_ascii_lowercase v) = false)).
    { unfold lookup_key in E. destruct (find _ special_names) as [[k w]|] eqn:F; [|discriminate E]. injection E as <-.
      apply find_some in F as [I F]. cbn in F. apply String.eqb_eq in F. rewrite F. clear F. cbn [snd].
      repeat (destruct I as [I|I]; [injection I as <- <-; split; [discriminate|]; first [now left|right; reflexivity]|]). destruct I. }
    destruct N as [N [M|M]].
    + split; [contradiction|]. intros [X _]. destruct v; [congruence|discriminate M].
    + split; [contradiction|]. intros [_ X]. rewrite lower_blank in M. congruence.
  - assert (Nv : v <> "") by (intros ->; discriminate E).
    unfold upper_ending.
    assert (T := titlecase_empty true (to_ascii_lowercase v)). rewrite lower_blank in T.
    destruct (strip_suffix "os" (titlecase true (to_ascii_lowercase v))) as [x|] eqn:E1;
      [|destruct (strip_suffix "bsd" (titlecase true (to_ascii_lowercase v))) as [x|] eqn:E2].
    + apply strip_suffix_spec in E1. split; [intros H; destruct (app_nonempty x "OS" ltac:(discriminate) H)|].
      intros [_ H]. apply T in H. rewrite H in E1. symmetry in E1. destruct (app_nonempty x "os" ltac:(discriminate) E1).
    + apply strip_suffix_spec in E2. split; [intros H; destruct (app_nonempty x "BSD" ltac:(discriminate) H)|].
      intros [_ H]. apply T in H. rewrite H in E2. symmetry in E2. destruct (app_nonempty x "bsd" ltac:(discriminate) E2).
    + rewrite T. split; [now split|now intros [_ H]].
Qed.

Section Files.
  Context (header footer : string -> option string) (comment : string -> option string) (wide_lowercase : string -> bool).
  Definition low (s : string) : bool := match starts_lowercase wide_lowercase s with Ok b => b | _ => false end.
  Local Notation file := (write_enum_file header footer comment wide_lowercase).

  Lemma field_name key : In key FIELDS_WITH_ENUMS -> exists name, enum_name key = Ok name /\ enum_of_key key name.
  Proof.
    intros H. cbn [FIELDS_WITH_ENUMS In] in H.
    destruct H as [<-|[<-|[<-|[<-|[<-|[]]]]]]; eexists; (split; [reflexivity|unfold enum_of_key; cbn; tauto]).
  Qed.
  Lemma enum_of_key_name key name : enum_of_key key name -> enum_name key = Ok name.
  Proof. unfold enum_of_key. cbn [In]. intros [H|[H|[H|[H|[H|[]]]]]]; injection H as <- <-; reflexivity. Qed.

  Definition definition_text (name : string) (values : list string) : string :=
    lines (app ["pub enum " ++ name ++ " {"] (app (List.concat (map (variant_lines variant_name comment low) values)) ["}"])).
  Lemma definition_iff key name infos s : enum_of_key key name ->
    write_definition comment wide_lowercase key infos = (s, Ok tt)
    <-> exists values, distinct_values key infos = Ok values /\ (forall v, In v values -> variant_name v <> "")
        /\ s = definition_text name values.
  Proof.
    intros K. apply enum_of_key_name in K. unfold write_definition. rewrite computing_ok. split.
    - intros (n & En & H). assert (n = name) by congruence. subst n.
      apply andthen_ok in H as (a & b & Ha & Hb & ->). apply emit_ok in Ha as ->.
      apply computing_ok in Hb as (values & Ev & Hb). exists values. split; [exact Ev|].
      apply andthen_ok in Hb as (c & d & Hc & Hd & ->). apply emit_ok in Hd as ->.
      apply each_ok in Hc as (parts & F & ->).
      assert (G : (forall v, In v values -> variant_name v <> "") /\ String.concat "" parts = concat_map (fun v => lines (variant_lines variant_name comment low v)) values).
      { clear - F. unfold concat_map. induction F as [|v p values parts E F [IH1 IH2]]; [split; [intros v []|reflexivity]|].
        apply andthen_ok in E as (a & b & Ha & Hb & ->). apply emit_ok in Ha as ->.
        apply computing_ok in Hb as (lw & El & Hb). apply andthen_ok in Hb as (c & d & Hc & Hd & ->). apply emit_ok in Hd as ->.
        assert (Nv : variant_name v <> "") by (intros X; rewrite X in El; discriminate El).
        split; [intros w [<-|I]; [exact Nv|exact (IH1 w I)]|].
        cbn [map]. rewrite !concat_cons, IH2. f_equal.
        unfold variant_lines, low. rewrite El, !lines_app. cbn [lines].
        destruct lw; apply emit_ok in Hc as ->; destruct (comment v); cbn [lines append]; rewrite ?sapp_assoc; cbn [append]; rewrite ?sapp_assoc; reflexivity. }
      destruct G as [G1 G2]. split; [exact G1|]. unfold definition_text. rewrite !lines_app, lines_concat, G2. cbn [lines append]. rewrite ?sapp_assoc. reflexivity.
    - intros (values & Ev & Hn & ->). exists name. split; [exact K|].
      apply andthen_ok. exists ("pub enum " ++ name ++ " {" ++ String nl ""), (concat_map (fun v => lines (variant_lines variant_name comment low v)) values ++ lines ["}"]).
      split; [reflexivity|]. split.
      + apply computing_ok. exists values. split; [exact Ev|]. apply andthen_ok.
        exists (concat_map (fun v => lines (variant_lines variant_name comment low v)) values), (lines ["}"]).
        split; [|split; reflexivity].
        apply each_ok. exists (map (fun v => lines (variant_lines variant_name comment low v)) values). split; [|reflexivity].
        clear - Hn. induction values as [|v values IH]; cbn [map]; constructor; [|apply IH; intros w I; apply Hn; now right].
        assert (Nv := Hn v (or_introl eq_refl)).
        assert (El : exists lw, starts_lowercase wide_lowercase (variant_name v) = Ok lw).
        { destruct (variant_name v) as [|a r]; [congruence|]. cbn [starts_lowercase]. now eexists. }
        destruct El as [lw El].
        apply andthen_ok. exists ("    /// `" ++ v ++ "`" ++ (match comment v with Some c => ": " ++ c | None => "" end) ++ String nl "").
        eexists. split; [reflexivity|]. split.
        * apply computing_ok. exists lw. split; [exact El|]. apply andthen_ok.
          exists (if lw then "    #[allow(non_camel_case_types)]" ++ String nl "" else ""). eexists.
          split; [destruct lw; reflexivity|]. split; reflexivity.
        * unfold variant_lines, low. rewrite El, !lines_app. cbn [lines].
          destruct lw, (comment v); cbn [lines append]; rewrite ?sapp_assoc; cbn [append]; rewrite ?sapp_assoc; reflexivity.
      + unfold definition_text. rewrite !lines_app, lines_concat. cbn [lines append]. rewrite ?sapp_assoc. reflexivity.
  Qed.
  Lemma conversions_total key name infos values : enum_name key = Ok name -> distinct_values key infos = Ok values ->
    exists s', write_conversions key infos = (s', Ok tt).
  Proof.
    intros K Ev. unfold write_conversions. rewrite Ev, K. cbn [computing].
      rewrite (proj2 (each_emit (fun raw => "            Self::" ++ variant_name raw ++ " => " ++ String q "" ++ raw ++ String q "" ++ "," ++ String nl "") values _) eq_refl).
      rewrite (proj2 (each_emit (fun raw => "            " ++ String q "" ++ raw ++ String q "" ++ " => Self::" ++ variant_name raw ++ "," ++ String nl "") values _) eq_refl).
      unfold andthen, emit. cbn [fst snd]. eexists. reflexivity.
  Qed.
  Lemma conversions_iff key name infos s : enum_of_key key name ->
    write_conversions key infos = (s, Ok tt)
    <-> exists values, distinct_values key infos = Ok values
        /\ definition_text name values ++ s
           = enum_text variant_name comment low key name values.
  Proof.
    intros K. apply enum_of_key_name in K.
    assert (T : forall values, exists t,
      (emit (String nl "" ++ "impl " ++ name ++ " {" ++ String nl ""
        ++ "    /// String representing this `" ++ name ++ "` which matches `#[cfg(" ++ key ++ ")]`" ++ String nl ""
        ++ "    pub fn as_str(self) -> &'static str {" ++ String nl "" ++ "        match self {" ++ String nl "")
      = (lines [""; "impl " ++ name ++ " {"; "    /// String representing this `" ++ name ++ "` which matches `#[cfg(" ++ key ++ ")]`";
          "    pub fn as_str(self) -> &'static str {"; "        match self {"], Ok tt)) /\
      enum_text variant_name comment low key name values =
      definition_text name values ++ t
      /\ t = lines [""; "impl " ++ name ++ " {"; "    /// String representing this `" ++ name ++ "` which matches `#[cfg(" ++ key ++ ")]`";
          "    pub fn as_str(self) -> &'static str {"; "        match self {"]
        ++ concat_map (fun v => "            Self::" ++ variant_name v ++ " => " ++ String q "" ++ v ++ String q "" ++ "," ++ String nl "") values
        ++ lines ["        }"; "    }"; "}"]
        ++ lines [""; "impl FromStr for " ++ name ++ " {"; "    type Err = Error;"; ""; "    /// Create a new `" ++ name ++ "` from the given string";
           "    fn from_str(name: &str) -> Result<Self, Self::Err> {"; "        let result = match name {"]
        ++ concat_map (fun v => "            " ++ String q "" ++ v ++ String q "" ++ " => Self::" ++ variant_name v ++ "," ++ String nl "") values
        ++ lines ["            _ => return Err(Error),"; "        };"; ""; "        Ok(result)"; "    }"; "}"]).
    { intros values. eexists. split; [|split; [|reflexivity]].
      - unfold emit. f_equal. cbn [lines append]. rewrite ?sapp_assoc. cbn [append]. rewrite ?sapp_assoc. reflexivity.
      - unfold enum_text, definition_text. rewrite !lines_app, !lines_map, lines_concat.
        assert (E1 : forall (f g : string -> string) l, (forall v, f v = g v) -> concat_map f l = concat_map g l).
        { intros f g l H. unfold concat_map. f_equal. apply map_ext. exact H. }
        rewrite (E1 (fun x => ("            Self::" ++ variant_name x ++ " => " ++ quoted x ++ ",") ++ String nl "")
                    (fun v => "            Self::" ++ variant_name v ++ " => " ++ String q "" ++ v ++ String q "" ++ "," ++ String nl "")).
        2:{ intros v. unfold quoted. cbn [append]. rewrite ?sapp_assoc. cbn [append]. rewrite ?sapp_assoc. reflexivity. }
        rewrite (E1 (fun x => ("            " ++ quoted x ++ " => Self::" ++ variant_name x ++ ",") ++ String nl "")
                    (fun v => "            " ++ String q "" ++ v ++ String q "" ++ " => Self::" ++ variant_name v ++ "," ++ String nl "")).
        2:{ intros v. unfold quoted. cbn [append]. rewrite ?sapp_assoc. cbn [append]. rewrite ?sapp_assoc. reflexivity. }
        generalize (concat_map (fun x => lines (variant_lines variant_name comment low x)) values). intros A.
        generalize (concat_map (fun v => "            Self::" ++ variant_name v ++ " => " ++ String q "" ++ v ++ String q "" ++ "," ++ String nl "") values). intros B.
        generalize (concat_map (fun v => "            " ++ String q "" ++ v ++ String q "" ++ " => Self::" ++ variant_name v ++ "," ++ String nl "") values). intros C.
        cbn [lines append]. rewrite ?sapp_assoc. cbn [append]. rewrite ?sapp_assoc. cbn [append]. reflexivity. }
    assert (D : forall s, write_conversions key infos = (s, Ok tt) -> exists values, distinct_values key infos = Ok values
        /\ definition_text name values ++ s = enum_text variant_name comment low key name values).
    { clear s. intros s W. unfold write_conversions in W. apply computing_ok in W as (values & Ev & H). apply computing_ok in H as (n & En & H). assert (n = name) by congruence. subst n.
      exists values. split; [exact Ev|]. destruct (T values) as (t & T1 & T2 & T3). rewrite T2. f_equal. rewrite T3.
      apply andthen_ok in H as (a & b & Ha & H & ->). rewrite T1 in Ha. assert (a = lines [""; "impl " ++ name ++ " {"; "    /// String representing this `" ++ name ++ "` which matches `#[cfg(" ++ key ++ ")]`";
          "    pub fn as_str(self) -> &'static str {"; "        match self {"]) by congruence. subst a. f_equal.
      apply andthen_ok in H as (a & c & Ha' & H & ->). apply each_emit in Ha' as ->. f_equal.
      apply andthen_ok in H as (a & d & Ha' & H & ->). apply emit_ok in Ha' as ->. f_equal.
      apply andthen_ok in H as (a & e & Ha' & H & ->). apply emit_ok in Ha' as ->. f_equal.
      { cbn [lines append]. rewrite ?sapp_assoc. cbn [append]. rewrite ?sapp_assoc. reflexivity. }
      apply andthen_ok in H as (a & f & Ha' & H & ->). apply each_emit in Ha' as ->. f_equal.
      apply emit_ok in H as ->. reflexivity. }
    split; [exact (D s)|]. intros (values & Ev & H).
    assert (X := conversions_total key name infos values K Ev).
    destruct X as [s' X]. destruct (D s' X) as (values' & Ev' & H'). assert (values' = values) by congruence. subst values'.
    rewrite <- H' in H. apply sapp_inj_l in H. subst s'. exact X.
  Qed.

  (** Property C88: the file of an enum is completed exactly when every target has a value for the key and no value is made of
      underscores only; it then has one variant for each distinct value. *)
  Theorem C88_enum_file : forall key name h f infos text, enum_of_key key name -> header key = Some h -> footer key = Some f ->
    file key infos = (text, Ok tt)
    <-> (forall info, In info infos -> exists v, lookup_key info key = Some v /\ (v = "" \/ blank_name v = false))
        /\ exists values, values_of key infos values /\ text = h ++ enum_text variant_name comment low key name values ++ f.
  Proof.
    intros key name h f infos text K Hh Hf. unfold write_enum_file. rewrite Hh, Hf. cbn [or_panic computing]. split.
    - intros H. apply andthen_ok in H as (a & b & Ha & H & ->). apply emit_ok in Ha as ->.
      apply andthen_ok in H as (a & c & Ha & H & ->). apply andthen_ok in H as (d & e & Hd & He & ->). apply emit_ok in He as ->.
      apply (definition_iff key name) in Ha as (values & Ev & Hn & ->); [|exact K].
      apply (conversions_iff key name) in Hd as (values' & Ev' & Hd); [|exact K].
      assert (values' = values) by congruence. subst values'.
      apply distinct_iff in Ev as [V Hi]. split.
      + intros i I. destruct (Hi i I) as [v Hv]. exists v. split; [exact Hv|].
        assert (Nv : variant_name v <> "") by (apply Hn, (proj2 V); now exists i).
        destruct (String.eqb_spec v "") as [->|Ne]; [now left|]. right.
        destruct (blank_name v) eqn:B; [|reflexivity]. destruct Nv. apply variant_empty. now split.
      + exists values. split; [exact V|]. rewrite <- Hd, sapp_assoc. reflexivity.
    - intros [Hi (values & V & ->)].
      assert (Ev : distinct_values key infos = Ok values).
      { apply distinct_iff. split; [exact V|]. intros i I. destruct (Hi i I) as (v & Hv & _). now exists v. }
      apply andthen_ok. exists h, (enum_text variant_name comment low key name values ++ f). split; [reflexivity|]. split; [|reflexivity].
      assert (Hn : forall v, In v values -> variant_name v <> "").
      { intros v I X. apply variant_empty in X as [X1 X2]. apply (proj2 V) in I as (i & I & Hv).
        destruct (Hi i I) as (v' & Hv' & C). assert (v' = v) by congruence. subst v'. destruct C; congruence. }
      destruct (conversions_total key name infos values (enum_of_key_name _ _ K) Ev) as [t W].
      assert (T : definition_text name values ++ t = enum_text variant_name comment low key name values).
      { apply (conversions_iff key name infos t K) in W as (values' & Ev' & E). assert (values' = values) by congruence. subst values'. exact E. }
      rewrite <- T.
      apply andthen_ok. eexists. exists (t ++ f). split; [apply (definition_iff key name); [exact K|]; exists values; split; [exact Ev|]; split; [exact Hn|reflexivity]|].
      split; [|rewrite sapp_assoc; reflexivity].
      apply andthen_ok. exists t, f. split; [exact W|split; reflexivity].
  Qed.
End Files.
