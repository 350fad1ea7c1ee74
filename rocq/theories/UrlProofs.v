(** Proofs about package sources as text. *)
From Coq Require Import List NArith Ascii String Bool Lia Arith.
From Verif Require Import Base SemverModel StrLib VerText PkgModel UrlModel UrlSpec.
Import ListNotations.
Local Open Scope string_scope.
Local Open Scope N_scope.
Local Infix "++" := String.append (right associativity, at level 60).

(** ** Finite checks over all bytes *)
Definition all_ascii : list ascii := map ascii_of_nat (seq 0 256).
Lemma all_ascii_in a : In a all_ascii.
Proof.
  unfold all_ascii. rewrite <- (ascii_nat_embedding a). apply in_map. apply in_seq.
  split; [lia|]. destruct a as [[] [] [] [] [] [] [] []]; vm_compute; lia.
Qed.
Lemma ascii_forall (P : ascii -> bool) : forallb P all_ascii = true -> forall a, P a = true.
Proof. intros H a. apply (proj1 (forallb_forall P all_ascii) H). apply all_ascii_in. Qed.
Lemma ascii_imp (P Q : ascii -> bool) : forallb (fun a => negb (P a) || Q a)%bool all_ascii = true ->
  forall a, P a = true -> Q a = true.
Proof. intros H a Pa. pose proof (ascii_forall _ H a) as K. cbv beta in K. rewrite Pa in K. exact K. Qed.

(** ** Percent encoding *)
Lemma percent_decode_pct a r : percent_decode (pct a ++ r) = String a (percent_decode r).
Proof. destruct a as [[] [] [] [] [] [] [] []]; reflexivity. Qed.
Lemma plus_pct a r : plus_to_space (pct a ++ r) = pct a ++ plus_to_space r.
Proof. destruct a as [[] [] [] [] [] [] [] []]; reflexivity. Qed.
Lemma percent_decode_cons a r : a <> "%"%char -> percent_decode (String a r) = String a (percent_decode r).
Proof.
  intros H. destruct a as [[] [] [] [] [] [] [] []]; try reflexivity. exfalso. apply H. reflexivity.
Qed.
Lemma plus_cons a r : a <> "+"%char -> plus_to_space (String a r) = String a (plus_to_space r).
Proof. intros H. cbn. destruct (Ascii.eqb_spec a "+"); [congruence|reflexivity]. Qed.

Lemma form_decode_pct a r : form_decode (pct a ++ r) = String a (form_decode r).
Proof. unfold form_decode. rewrite plus_pct. apply percent_decode_pct. Qed.
Lemma form_decode_cons a r : a <> "%"%char -> a <> "+"%char -> form_decode (String a r) = String a (form_decode r).
Proof. intros H1 H2. unfold form_decode. rewrite plus_cons by exact H2. apply percent_decode_cons. exact H1. Qed.
Lemma form_decode_plus r : form_decode (String "+" r) = String " " (form_decode r).
Proof. reflexivity. Qed.

Lemma form_decode_serialize s : form_decode (byte_serialize s) = s.
Proof.
  induction s as [|a s IH]; [reflexivity|]. cbn [byte_serialize].
  destruct (form_plain a) eqn:P.
  - rewrite form_decode_cons, IH; [reflexivity| |]; intros ->; discriminate P.
  - destruct (Ascii.eqb_spec a " ") as [->|n].
    + rewrite form_decode_plus, IH. reflexivity.
    + rewrite form_decode_pct, IH. reflexivity.
Qed.

Lemma encode_id set s : str_forall (fun a => negb (set a)) s = true -> encode set s = s.
Proof.
  induction s as [|a s IH]; cbn; [reflexivity|]. intros H. apply andb_prop in H as [H1 H2].
  apply negb_true_iff in H1. rewrite H1, (IH H2). reflexivity.
Qed.
Lemma encode_app set a b : encode set (a ++ b) = encode set a ++ encode set b.
Proof.
  induction a as [|x a IH]; cbn [encode String.append]; [reflexivity|]. destruct (set x); rewrite IH; [rewrite sapp_assoc|]; reflexivity.
Qed.
Definition ser_char (a : ascii) : bool := form_plain a || is_one_of "+%" a.
Lemma str_forall_pct P a : forallb (fun x => str_forall P (pct x)) all_ascii = true -> str_forall P (pct a) = true.
Proof. intros H. apply (ascii_forall (fun x => str_forall P (pct x)) H a). Qed.
Lemma byte_serialize_chars s : str_forall ser_char (byte_serialize s) = true.
Proof.
  induction s as [|a s IH]; [reflexivity|]. cbn [byte_serialize]. destruct (form_plain a) eqn:P.
  - cbn [str_forall]. unfold ser_char at 1. rewrite P. exact IH.
  - destruct (Ascii.eqb a " "); [cbn [str_forall]; rewrite IH; reflexivity|].
    rewrite str_forall_app, IH, andb_true_r. apply str_forall_pct. reflexivity.
Qed.
Lemma encode_chars set P s : forallb (fun x => str_forall P (pct x)) all_ascii = true ->
  (forall a, set a = false -> P a = true) -> str_forall P (encode set s) = true.
Proof.
  intros Hp Hs. induction s as [|a s IH]; [reflexivity|]. cbn [encode]. destruct (set a) eqn:E.
  - rewrite str_forall_app, IH, andb_true_r. apply str_forall_pct. exact Hp.
  - cbn [str_forall]. rewrite (Hs a E), IH. reflexivity.
Qed.
Lemma form_decode_encode sp v : str_forall plain_ref_char v = true -> form_decode (encode (query_set sp) v) = v.
Proof.
  induction v as [|a v IH]; [reflexivity|]. cbn [str_forall encode]. intros H. apply andb_prop in H as [H1 H2].
  destruct (query_set sp a).
  - rewrite form_decode_pct, (IH H2). reflexivity.
  - rewrite form_decode_cons, (IH H2); [reflexivity| |]; intros ->; discriminate H1.
Qed.

(** ** [Url::parse] on clean input *)
Definition clean_char (a : ascii) : bool := 32 <? N_of_ascii a.
Lemma trim_left_id P s : str_forall (fun a => negb (P a)) s = true -> trim_left P s = s.
Proof. destruct s as [|a s]; cbn; [reflexivity|]. intros H. apply andb_prop in H as [H _]. apply negb_true_iff in H. rewrite H. reflexivity. Qed.
Lemma str_forall_srev P s : str_forall P (srev s) = str_forall P s.
Proof. induction s as [|a s IH]; [reflexivity|]. rewrite srev_cons, str_forall_app, IH. cbn. rewrite andb_true_r, andb_comm. reflexivity. Qed.
Lemma drop_chars_id P s : str_forall (fun a => negb (P a)) s = true -> drop_chars P s = s.
Proof. induction s as [|a s IH]; cbn; [reflexivity|]. intros H. apply andb_prop in H as [H1 H2]. apply negb_true_iff in H1. rewrite H1, (IH H2). reflexivity. Qed.
Lemma clean_input_id s : str_forall clean_char s = true -> clean_input s = s.
Proof.
  intros H. unfold clean_input, trim_both.
  assert (A : str_forall (fun a => negb (c0_or_space a)) s = true).
  { eapply str_forall_imp; [|exact H]. apply ascii_imp. reflexivity. }
  assert (B : str_forall (fun a => negb (tab_or_newline a)) s = true).
  { eapply str_forall_imp; [|exact H]. apply ascii_imp. reflexivity. }
  rewrite (trim_left_id _ s A), trim_left_id by (rewrite str_forall_srev; exact A).
  rewrite srev_involutive. apply drop_chars_id. exact B.
Qed.

Definition assemble (b : string) (q f : option string) : string :=
  b ++ match q with Some q => "?" ++ q | None => "" end ++ match f with Some f => "#" ++ f | None => "" end.
Lemma url_string_assemble u : url_string u = assemble (u_base u) (u_query u) (u_fragment u).
Proof. reflexivity. Qed.
Definition opt_forall (P : ascii -> bool) (o : option string) : Prop :=
  match o with Some s => str_forall P s = true | None => True end.
Lemma assemble_forall P b q f : P "?"%char = true -> P "#"%char = true -> str_forall P b = true -> opt_forall P q -> opt_forall P f ->
  str_forall P (assemble b q f) = true.
Proof.
  intros P1 P2 Hb Hq Hf. unfold assemble. rewrite !str_forall_app, Hb.
  destruct q, f; cbn in *; rewrite ?P1, ?P2, ?Hq, ?Hf; reflexivity.
Qed.
Lemma split_once_q b (q : option string) : has_char "?" b = false ->
  match split_once "?" (b ++ match q with Some x => "?" ++ x | None => "" end) with
  | Some (x, y) => (x, Some y) | None => (b ++ match q with Some x => "?" ++ x | None => "" end, None) end = (b, q).
Proof.
  intros H. destruct q as [q|].
  - change ("?" ++ q) with (String "?" q). rewrite (split_once_app "?" b q H). reflexivity.
  - rewrite sapp_nil_r, (proj2 (split_once_none "?" b) H). reflexivity.
Qed.
Lemma url_parse_assemble norm b q f :
  str_forall clean_char (assemble b q f) = true -> has_char "?" b = false -> has_char "#" b = false ->
  match q with Some q => has_char "#" q = false | None => True end ->
  url_parse norm (assemble b q f) =
    match norm b with
    | None => None
    | Some b' => Some (mkUrl b' (option_map (encode (query_set (is_special b'))) q) (option_map (encode fragment_set) f))
    end.
Proof.
  intros Hc H1 H2 H3. unfold url_parse. rewrite clean_input_id by exact Hc. unfold assemble.
  assert (N : has_char "#" (b ++ match q with Some x => "?" ++ x | None => "" end) = false).
  { rewrite has_char_app, H2. destruct q; [exact H3|reflexivity]. }
  rewrite <- sapp_assoc. destruct f as [f|].
  - change ("#" ++ f) with (String "#" f). rewrite (split_once_app "#" _ f N). cbv iota beta.
    rewrite split_once_q by exact H1. reflexivity.
  - rewrite sapp_nil_r, (proj2 (split_once_none "#" _) N). cbv iota beta. rewrite split_once_q by exact H1. reflexivity.
Qed.

Definition visible_query (a : ascii) : bool := visible a && negb (Ascii.eqb a "#").
Lemma query_encode_visible sp s : str_forall visible_query (encode (query_set sp) s) = true.
Proof.
  apply encode_chars; [reflexivity|]. intros a H.
  assert (negb (query_set false a) = true) as H'.
  { destruct sp; [|rewrite H; reflexivity]. unfold query_set in *. cbn [andb] in *. rewrite orb_false_r.
    apply orb_false_iff in H as [H _]. rewrite H. reflexivity. }
  revert H'. apply (ascii_imp (fun a => negb (query_set false a)) visible_query). reflexivity.
Qed.
Lemma fragment_encode_plain s : str_forall (fun a => negb (fragment_set a)) (encode fragment_set s) = true.
Proof. apply encode_chars; [reflexivity|]. intros a ->. reflexivity. Qed.
Lemma query_encode_plain sp s : str_forall (fun a => negb (query_set sp a)) (encode (query_set sp) s) = true.
Proof. apply encode_chars; [destruct sp; reflexivity|]. intros a ->. reflexivity. Qed.
Lemma plain_fragment_visible a : negb (fragment_set a) = true -> visible a = true.
Proof. apply (ascii_imp (fun a => negb (fragment_set a)) visible). reflexivity. Qed.
Lemma visible_clean a : visible a = true -> clean_char a = true.
Proof. apply ascii_imp. reflexivity. Qed.
Lemma visible_query_clean a : visible_query a = true -> clean_char a = true.
Proof. apply ascii_imp. reflexivity. Qed.

(** A parsed URL is visible, and parses back to itself. *)
Lemma url_parse_shape norm s u : norm_laws norm -> url_parse norm s = Some u ->
  norm (u_base u) = Some (u_base u) /\ str_forall visible (u_base u) = true /\
  has_char "?" (u_base u) = false /\ has_char "#" (u_base u) = false /\
  opt_forall visible_query (u_query u) /\ opt_forall (fun a => negb (fragment_set a)) (u_fragment u) /\
  opt_forall (fun a => negb (query_set (is_special (u_base u)) a)) (u_query u).
Proof.
  intros L. unfold url_parse.
  destruct (match split_once "#" _ with Some (x, f) => (x, Some f) | None => _ end) as [s1 fr].
  destruct (match split_once "?" _ with Some (x, f) => (x, Some f) | None => _ end) as [b q].
  destruct (norm b) as [b'|] eqn:E; [|discriminate]. intros H; injection H as <-. cbn [u_base u_query u_fragment].
  destruct (L b b' E) as (H1 & H2 & H3 & H4). repeat split; auto.
  - destruct q; [apply query_encode_visible|exact I].
  - destruct fr; [apply fragment_encode_plain|exact I].
  - destruct q; [apply query_encode_plain|exact I].
Qed.
Lemma url_parse_string norm s u : norm_laws norm -> url_parse norm s = Some u -> url_parse norm (url_string u) = Some u.
Proof.
  intros L H. destruct (url_parse_shape norm s u L H) as (H1 & H2 & H3 & H4 & H5 & H6 & H7).
  rewrite url_string_assemble, url_parse_assemble; auto.
  - rewrite H1. destruct u as [b q f]. cbn [u_base u_query u_fragment] in *. f_equal. f_equal.
    + destruct q; cbn in *; [rewrite encode_id by exact H7|]; reflexivity.
    + destruct f; cbn in *; [rewrite encode_id by exact H6|]; reflexivity.
  - apply assemble_forall; [reflexivity|reflexivity| | |].
    + eapply str_forall_imp; [apply visible_clean|exact H2].
    + destruct (u_query u); [|exact I]. eapply str_forall_imp; [apply visible_query_clean|exact H5].
    + destruct (u_fragment u); [|exact I]. eapply str_forall_imp; [|exact H6]. intros a Ha. apply visible_clean, plain_fragment_visible. exact Ha.
  - destruct (u_query u); [|exact I]. eapply str_forall_has; [exact H5|reflexivity].
Qed.

(** ** Sources *)
Lemma kind_git r : split_once "+" ("git+" ++ r) = Some ("git", r). Proof. reflexivity. Qed.
Lemma kind_path r : split_once "+" ("path+" ++ r) = Some ("path", r). Proof. reflexivity. Qed.
Lemma kind_registry r : split_once "+" ("registry+" ++ r) = Some ("registry", r). Proof. reflexivity. Qed.
Lemma kind_sparse r : split_once "+" ("sparse+" ++ r) = Some ("sparse", r). Proof. reflexivity. Qed.

Lemma one_pair k v : has_char "=" k = false -> has_char "&" k = false -> has_char "&" v = false ->
  query_pairs (Some (k ++ "=" ++ v)) = [(form_decode k, form_decode v)].
Proof.
  intros H1 H2 H3. unfold query_pairs.
  rewrite split_on_nochar by (rewrite !has_char_app, H2, H3; reflexivity). cbn [filter].
  assert (String.eqb (k ++ "=" ++ v) "" = false) as -> by (destruct k; reflexivity). cbn [negb map].
  unfold query_pair. change ("=" ++ v) with (String "=" v). rewrite split_once_app by exact H1. reflexivity.
Qed.

Lemma ref_roundtrip encoded r p sp : pretty_ref encoded r = Some p ->
  (encoded = false -> match r with GBranch v | GTag v | GRev v => str_forall plain_ref_char v = true | GDefaultBranch => True end) ->
  fold_left apply_pair (query_pairs (Some (encode (query_set sp) p))) GDefaultBranch = r /\
  has_char "#" p = false /\ str_forall clean_char p = true.
Proof.
  intros Hp Hpl.
  assert (K : forall v, (encoded = false -> str_forall plain_ref_char v = true) ->
    let x := if encoded then byte_serialize v else v in
    form_decode (encode (query_set sp) x) = v /\ has_char "&" (encode (query_set sp) x) = false /\
    has_char "#" x = false /\ str_forall clean_char x = true).
  { intros v Hv. destruct encoded; cbv zeta.
    - pose proof (byte_serialize_chars v) as C. rewrite encode_id.
      + split; [apply form_decode_serialize|]. repeat split.
        * eapply str_forall_has; [exact C|reflexivity].
        * eapply str_forall_has; [exact C|reflexivity].
        * eapply str_forall_imp; [|exact C]. apply ascii_imp. reflexivity.
      + eapply str_forall_imp; [|exact C]. destruct sp; apply ascii_imp; reflexivity.
    - specialize (Hv eq_refl). split; [apply form_decode_encode; exact Hv|]. repeat split.
      + clear Hpl Hp. induction v as [|a v IH]; [reflexivity|]. cbn [str_forall encode] in *. apply andb_prop in Hv as [Ha Hv].
        destruct (query_set sp a).
        * rewrite has_char_app, (IH Hv), orb_false_r. 
          assert (T : str_forall (fun c => negb (Ascii.eqb c "&")) (pct a) = true) by (apply str_forall_pct; reflexivity).
          eapply str_forall_has; [exact T|reflexivity].
        * cbn [has_char]. rewrite (IH Hv), orb_false_r. destruct (Ascii.eqb_spec a "&") as [->|]; [discriminate Ha|reflexivity].
      + eapply str_forall_has; [exact Hv|reflexivity].
      + eapply str_forall_imp; [|exact Hv]. apply ascii_imp. reflexivity. }
  assert (Enc : forall k v, str_forall (fun a => negb (query_set sp a)) k = true ->
     encode (query_set sp) (k ++ v) = k ++ encode (query_set sp) v).
  { intros k v Hk. rewrite encode_app, encode_id by exact Hk. reflexivity. }
  assert (Fin : forall k v f, (forall w, apply_pair GDefaultBranch (form_decode k, w) = f w) ->
     (encoded = false -> str_forall plain_ref_char v = true) ->
     str_forall (fun a => negb (query_set sp a)) k = true -> has_char "=" k = false -> has_char "&" k = false ->
     has_char "#" k = false -> str_forall clean_char k = true ->
     p = k ++ "=" ++ (if encoded then byte_serialize v else v) ->
     fold_left apply_pair (query_pairs (Some (encode (query_set sp) p))) GDefaultBranch = f v /\
       has_char "#" p = false /\ str_forall clean_char p = true).
  { intros k v f Hf Hv Hk1 Hk2 Hk3 Hk4 Hk5 ->. destruct (K v Hv) as (K1 & K2 & K3 & K4).
    set (x := if encoded then byte_serialize v else v) in *. split; [|split].
    - rewrite Enc by exact Hk1. rewrite (Enc "=") by (destruct sp; reflexivity).
      rewrite one_pair by assumption. rewrite K1. cbn [fold_left]. apply Hf.
    - rewrite !has_char_app, Hk4, K3. reflexivity.
    - rewrite !str_forall_app, Hk5, K4. reflexivity. }
  destruct r as [|v|v|v]; [discriminate| | |].
  - apply (Fin "tag" v GTag); try reflexivity; [exact Hpl|destruct sp; reflexivity|cbn in Hp; injection Hp as <-; reflexivity].
  - apply (Fin "branch" v GBranch); try reflexivity; [exact Hpl|destruct sp; reflexivity|cbn in Hp; injection Hp as <-; reflexivity].
  - apply (Fin "rev" v GRev); try reflexivity; [exact Hpl|destruct sp; reflexivity|cbn in Hp; injection Hp as <-; reflexivity].
Qed.

Theorem source_roundtrip norm encoded s : norm_laws norm -> writable norm s -> (encoded = false -> plain_ref s) ->
  from_url norm (as_url encoded s) = Ok (reread s).
Proof.
  intros L [Hn W] Hr. unfold as_url, reread, from_url. destruct s as [u k p n]. cbn [s_url s_kind s_precise s_name] in *. subst n.
  destruct k as [r| | | | |]; try contradiction.
  - (* git *)
    destruct W as [B P]. rewrite kind_git. cbv iota beta. cbn [String.eqb Ascii.eqb Bool.eqb].
    change (u ++ match pretty_ref encoded r with Some x => "?" ++ x | None => "" end ++ match p with Some x => "#" ++ x | None => "" end)
      with (assemble u (pretty_ref encoded r) p).
    destruct (L u u B) as (_ & V & Q & F).
    assert (R := fun x => ref_roundtrip encoded r x).
    assert (Hr' : encoded = false -> match r with GBranch v | GTag v | GRev v => str_forall plain_ref_char v = true | GDefaultBranch => True end).
    { intros E. specialize (Hr E). unfold plain_ref in Hr. cbn in Hr. destruct r; auto. }
    rewrite url_parse_assemble; [|apply assemble_forall; try reflexivity|exact Q|exact F|].
    + rewrite B. cbn [u_base u_query u_fragment].
      assert (Ep : option_map (encode fragment_set) p = p).
      { destruct p as [p|]; [|reflexivity]. cbn. rewrite encode_id by exact P. reflexivity. }
      rewrite Ep. destruct (pretty_ref encoded r) as [x|] eqn:Ex.
      * cbn [option_map]. rewrite (proj1 (R x (is_special u) eq_refl Hr')). reflexivity.
      * destruct r; try discriminate. reflexivity.
    + eapply str_forall_imp; [apply visible_clean|exact V].
    + destruct (pretty_ref encoded r) as [x|] eqn:Ex; [|exact I]. apply (R x true eq_refl Hr').
    + destruct p as [p|]; [|exact I]. eapply str_forall_imp; [|exact P]. intros a Ha. apply visible_clean, plain_fragment_visible. exact Ha.
    + destruct (pretty_ref encoded r) as [x|] eqn:Ex; [|exact I]. apply (R x true eq_refl Hr').
  - destruct W as (t & v & Hp & ->). rewrite kind_path. cbn [String.eqb Ascii.eqb Bool.eqb].
    rewrite (url_parse_string norm t v L Hp). reflexivity.
  - destruct W as (t & v & Hp & ->). rewrite kind_registry. cbn [String.eqb Ascii.eqb Bool.eqb].
    rewrite (url_parse_string norm t v L Hp). reflexivity.
  - destruct W as (t & v & Hp & ->). rewrite kind_sparse. cbn [String.eqb Ascii.eqb Bool.eqb].
    rewrite (url_parse_string norm t v L Hp). reflexivity.
Qed.

(** Everything that is read can be written, and reading it back changes nothing. *)
Theorem from_url_writable norm t s : norm_laws norm -> from_url norm t = Ok s -> writable norm s /\ reread s = s.
Proof.
  intros L. unfold from_url. destruct (split_once "+" t) as [[k r]|]; [|discriminate].
  destruct (String.eqb k "git").
  - destruct (url_parse norm r) as [u|] eqn:E; [|discriminate]. cbv zeta. intros H; injection H as <-.
    destruct (url_parse_shape norm r u L E) as (H1 & H2 & H3 & H4 & H5 & H6 & H7).
    split; [|reflexivity]. split; [reflexivity|]. cbn. split; [exact H1|].
    destruct (u_fragment u); [exact H6|exact I].
  - assert (K : forall kk, (kk = SRegistry \/ kk = SSparseRegistry \/ kk = SPath) -> forall u, url_parse norm r = Some u ->
      writable norm (mkSource (url_string u) kk (match kk with SPath => None | _ => Some "locked" end) None)).
    { intros kk Hk u Hu. split; [reflexivity|]. cbn. destruct Hk as [->|[->| ->]]; exists r, u; auto. }
    destruct (String.eqb k "registry"); [|destruct (String.eqb k "sparse"); [|destruct (String.eqb k "path"); [|discriminate]]];
      (destruct (url_parse norm r) as [u|] eqn:E; [|discriminate]); intros H; injection H as <-.
    + split; [apply (K SRegistry); auto|reflexivity].
    + split; [apply (K SSparseRegistry); auto|reflexivity].
    + split; [apply (K SPath); auto|reflexivity].
Qed.

(** ** Order and equality *)
Lemma git_reference_cmp_laws : cmp_laws git_reference_cmp.
Proof.
  apply (map_cmp_laws git_reference_key (pair_cmp Nat.compare str_cmp)).
  - intros [|x|x|x] [|y|y|y]; cbn; congruence.
  - apply pair_cmp_laws; [apply Nat_cmp_laws|apply str_cmp_laws].
Qed.
Lemma source_cmp_refl a : source_cmp a a = Eq.
Proof.
  unfold source_cmp. rewrite (cmp_refl _ str_cmp_laws), (cmp_refl _ (option_cmp_laws _ str_cmp_laws)). cbn [then_cmp].
  destruct (s_kind a); try reflexivity. destruct (s_precise a); [apply (cmp_refl _ str_cmp_laws)|reflexivity].
Qed.
Lemma then_cmp_opp x y x' y' : x' = CompOpp x -> y' = CompOpp y -> then_cmp x' y' = CompOpp (then_cmp x y).
Proof. intros -> ->. destruct x; reflexivity. Qed.
Lemma source_cmp_antisym a b : source_cmp b a = CompOpp (source_cmp a b).
Proof.
  unfold source_cmp. apply then_cmp_opp; [apply (cmp_antisym _ str_cmp_laws)|].
  apply then_cmp_opp; [apply (cmp_antisym _ (option_cmp_laws _ str_cmp_laws))|].
  destruct (s_kind a), (s_kind b); try reflexivity.
  destruct (s_precise a), (s_precise b); try reflexivity. apply (cmp_antisym _ str_cmp_laws).
Qed.
