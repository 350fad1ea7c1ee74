(** Property C91: version requirements as text, continued. *)
From Coq Require Import List NArith Ascii String Bool Arith Lia.
From Verif Require Import Base SemverModel StrLib VerText ReqText ReqSpec PropsReq.
Import ListNotations.
Local Open Scope string_scope.
Local Infix "++" := String.append (right associativity, at level 60).

Definition space (a : ascii) : bool := Ascii.eqb a " ".
(** The part of [parse_comparator] after the operator. *)
Definition parse_open (o wild_op : op) (text : string) : option (comparator * string) :=
  match numeric_identifier text with
  | None => None
  | Some (ma, text) =>
      match dotted text with
      | None => None
      | Some (None, text) => Some (mkComparator o ma None None [], trim_spaces text)
      | Some (Some (inl _), text) =>
          match text with
          | String "." r =>
              match wildcard r with Some r' => Some (mkComparator wild_op ma None None [], trim_spaces r') | None => None end
          | _ => Some (mkComparator wild_op ma None None [], trim_spaces text)
          end
      | Some (Some (inr mi), text) =>
          match dotted text with
          | None => None
          | Some (None, text) => Some (mkComparator o ma (Some mi) None [], trim_spaces text)
          | Some (Some (inl _), text) => Some (mkComparator wild_op ma (Some mi) None [], trim_spaces text)
          | Some (Some (inr pa), text) =>
              match parse_tail text with
              | Some (p, text) => Some (mkComparator o ma (Some mi) (Some pa) p, trim_spaces text)
              | None => None
              end
          end
      end
  end.
Lemma parse_comparator_eq s : parse_comparator s =
  let '(o, default, text) := parse_op s in parse_open o (if default then OpWildcard else o) (trim_spaces text).
Proof. reflexivity. Qed.

Lemma open_sound o wo text c rest : parse_open o wo text = Some (c, rest) ->
  exists body b w n m p l, text = body ++ b ++ rest /\ open_version body n m p l w /\ c = mkComparator (if w then wo else o) n m p l
    /\ spaces b /\ stops space rest.
Proof.
  unfold parse_open. destruct (numeric_identifier text) as [[ma t1]|] eqn:E1; [|discriminate].
  apply numeric_iff in E1 as (a & A & -> & S1).
  assert (Fin : forall body t o' n m p l w, open_version body n m p l w -> o' = (if w then wo else o) ->
    forall whole, whole = body ++ t -> Some (mkComparator o' n m p l, trim_spaces t) = Some (c, rest) ->
    exists body b w n m p l, whole = body ++ b ++ rest /\ open_version body n m p l w /\ c = mkComparator (if w then wo else o) n m p l
      /\ spaces b /\ stops space rest).
  { intros body t o' n m p l w O -> whole -> [= <- <-]. destruct (trim_spec t) as (b & B & E & S).
    exists body, b, w, n, m, p, l. split; [rewrite <- E; reflexivity|]. auto. }
  destruct (dotted t1) as [[x t2]|] eqn:E2; [|discriminate]. apply dotted_sound in E2. destruct x as [[[]|mi]|].
  - destruct E2 as (w & W & ->).
    assert (K : forall t, Some (mkComparator wo ma None None [], trim_spaces t) = Some (c, rest) -> t = t2 ->
      exists body b w0 n m p l, a ++ "." ++ w ++ t2 = body ++ b ++ rest /\ open_version body n m p l w0 /\ c = mkComparator (if w0 then wo else o) n m p l
      /\ spaces b /\ stops space rest).
    { intros t H ->. apply (Fin (a ++ "." ++ w) t2 wo ma None None [] true); [now constructor|reflexivity|rewrite !sapp_assoc; reflexivity|exact H]. }
    destruct t2 as [|d r]; [intros H; exact (K _ H eq_refl)|]. destruct (Ascii.ascii_dec d ".") as [->|N].
    + destruct (wildcard r) as [r'|] eqn:W'; [|discriminate]. apply wildcard_iff in W' as (w' & W' & ->). intros H.
      apply (Fin (a ++ "." ++ w ++ "." ++ w') r' wo ma None None [] true); [now constructor|reflexivity| |exact H].
      rewrite !sapp_assoc. reflexivity.
    + intros H. apply (K (String d r)); [|reflexivity]. rewrite <- H. destruct d as [[] [] [] [] [] [] [] []]; try reflexivity; congruence.
  - destruct E2 as (b & B & -> & S2). destruct (dotted t2) as [[y t3]|] eqn:E3; [|discriminate]. apply dotted_sound in E3. destruct y as [[[]|pa]|].
    + destruct E3 as (w & W & ->). apply (Fin (a ++ "." ++ b ++ "." ++ w) t3 wo ma (Some mi) None [] true); [now constructor|reflexivity|].
      rewrite !sapp_assoc. reflexivity.
    + destruct E3 as (p & P & -> & S3). destruct (parse_tail t3) as [[l t4]|] eqn:E4; [|discriminate].
      apply tail_sound in E4 as (t & u & bl & -> & T & U).
      apply (Fin (a ++ "." ++ b ++ "." ++ p ++ t ++ u) t4 o ma (Some mi) (Some pa) l false); [econstructor; eassumption|reflexivity|].
      rewrite !sapp_assoc. reflexivity.
    + destruct E3 as [-> S3]. apply (Fin (a ++ "." ++ b) t2 o ma (Some mi) None [] false); [now constructor|reflexivity|]. rewrite !sapp_assoc. reflexivity.
  - destruct E2 as [-> S2]. apply (Fin a t1 o ma None None [] false); [now constructor|reflexivity|reflexivity].
Qed.
Definition closes (s : string) : Prop := match s with EmptyString => True | String a _ => a = ","%char end.
Lemma blanks_end b rest : spaces b -> closes rest -> ends (b ++ rest) /\ trim_spaces (b ++ rest) = rest.
Proof.
  intros B C. split.
  - apply spaces_iff in B. destruct b as [|a b]; [destruct rest; [exact C|right; exact C]|].
    cbn [str_forall] in B. apply andb_prop in B as [B _]. apply Ascii.eqb_eq in B. left. exact B.
  - apply trim_app; [exact B|]. destruct rest as [|a r]; [exact Logic.I|]. cbn in C. subst a. reflexivity.
Qed.
Lemma open_complete o wo body b w n m p l rest : open_version body n m p l w -> spaces b -> closes rest ->
  parse_open o wo (body ++ b ++ rest) = Some (mkComparator (if w then wo else o) n m p l, rest).
Proof.
  intros O B C. destruct (blanks_end b rest B C) as [E T]. destruct (ends_stops _ E) as (S1 & S2 & S3). unfold parse_open.
  assert (Dot : forall s, stops is_dig ("." ++ s)) by reflexivity.
  destruct O as [n a A|n a w A W|n a w w' A W W'|n m a b' A B'|n m a b' w A B' W|n m p l bl a b' c t u A B' P T' U]; rewrite ?sapp_assoc.
  - rewrite (proj2 (numeric_iff _ n (b ++ rest))); [|eauto]. rewrite (dotted_none _ S2), T. reflexivity.
  - rewrite (proj2 (numeric_iff _ n ("." ++ w ++ b ++ rest))); [|eauto]. rewrite (dotted_wild w _ W).
    assert (Q : forall X : option (comparator * string), match b ++ rest with
      | String "." r => X
      | _ => Some (mkComparator wo n None None [], trim_spaces (b ++ rest)) end = Some (mkComparator wo n None None [], trim_spaces (b ++ rest))).
    { intros X. destruct (b ++ rest) as [|d r]; [reflexivity|]. cbn [stops] in S2. destruct (Ascii.eqb_spec "." d) as [|N]; [discriminate|].
      destruct d as [[] [] [] [] [] [] [] []]; try reflexivity; congruence. }
    destruct (b ++ rest) as [|d r] eqn:BR; [rewrite T; reflexivity|]. specialize (Q (match wildcard r with Some r' => Some (mkComparator wo n None None [], trim_spaces r') | None => None end)).
    rewrite T in Q. rewrite T. exact Q.
  - rewrite (proj2 (numeric_iff _ n ("." ++ w ++ "." ++ w' ++ b ++ rest))); [|eauto]. rewrite (dotted_wild w _ W).
    cbn [String.append]. rewrite (proj2 (wildcard_iff _ (b ++ rest))); [rewrite T; reflexivity|eauto].
  - rewrite (proj2 (numeric_iff _ n ("." ++ b' ++ b ++ rest))); [|eauto]. rewrite (dotted_number m b' _ B' S1), (dotted_none _ S2), T. reflexivity.
  - rewrite (proj2 (numeric_iff _ n ("." ++ b' ++ "." ++ w ++ b ++ rest))); [|eauto]. rewrite (dotted_number m b' _ B') by apply Dot.
    rewrite (dotted_wild w _ W), T. reflexivity.
  - rewrite (proj2 (numeric_iff _ n ("." ++ b' ++ "." ++ c ++ t ++ u ++ b ++ rest))); [|eauto]. rewrite (dotted_number m b' _ B') by apply Dot.
    rewrite (dotted_number p c _ P).
    + rewrite (tail_complete l bl t u (b ++ rest) T' U E), T. reflexivity.
    + destruct T'; [|reflexivity]. destruct U; [exact S1|reflexivity].
Qed.
Lemma open_first s n m p l w : open_version s n m p l w -> exists d r, s = String d r /\ is_dig d = true.
Proof.
  intros O. assert (F : forall k a t, number k a -> exists d r, a ++ t = String d r /\ is_dig d = true).
  { intros k a t A. destruct (number_first k a A) as (d & r & -> & D). exists d, (r ++ t). split; [reflexivity|exact D]. }
  destruct O; try (eapply F; eassumption). rewrite <- (sapp_nil_r a). eapply F; eassumption.
Qed.

Lemma comparator_sound s c rest : stops space s -> parse_comparator s = Some (c, rest) ->
  exists body b, s = body ++ b ++ rest /\ comparator_text body c /\ spaces b /\ stops space rest.
Proof.
  intros St. rewrite parse_comparator_eq. destruct (parse_op s) as [[o f] t] eqn:O. apply op_sound in O. intros H.
  apply open_sound in H as (body & b & w & n & m & p & l & E & V & -> & B & R). destruct (trim_spec t) as (b0 & B0 & E0 & _).
  destruct f.
  - destruct O as [-> ->]. exists body, b. split; [|split; [destruct w; now constructor|auto]].
    rewrite <- E. apply spaces_iff in B0. destruct b0 as [|a b0]; [exact E0|].
    exfalso. rewrite E0 in St. cbn [str_forall] in B0. apply andb_prop in B0 as [B0 _]. cbn in St. unfold space in St. congruence.
  - destruct O as (sign & I & ->). exists (sign ++ b0 ++ body), b. split; [rewrite E0, E, !sapp_assoc; reflexivity|]. split; [|auto].
    replace (if w then o else o) with o by (destruct w; reflexivity). econstructor; eassumption.
Qed.
Lemma comparator_complete body c b rest : comparator_text body c -> spaces b -> closes rest -> parse_comparator (body ++ b ++ rest) = Some (c, rest).
Proof.
  intros T B C. rewrite parse_comparator_eq. destruct T as [sign o b0 s n m p l w I B0 V|s n m p l V|s n m p l V].
  - rewrite !sapp_assoc. destruct (open_first _ _ _ _ _ _ V) as (d & r & E & D). rewrite (op_complete sign o); [|exact I|].
    + rewrite trim_app; [|exact B0|].
      * rewrite (open_complete o o s b w n m p l rest V B C). destruct w; reflexivity.
      * rewrite E. cbn [String.append stops]. revert d D E. clear. intros d D _. revert d D. apply dig_case; reflexivity.
    + apply spaces_iff in B0. destruct b0 as [|a b0].
      * rewrite E. exists d, (r ++ b ++ rest). split; [reflexivity|]. right. exact D.
      * cbn [str_forall] in B0. apply andb_prop in B0 as [B0 _]. apply Ascii.eqb_eq in B0. subst a. eexists _, _. split; [reflexivity|]. left. reflexivity.
  - destruct (open_first _ _ _ _ _ _ V) as (d & r & E & D). pose proof (open_complete OpCaret OpWildcard s b false n m p l rest V B C) as Q.
    rewrite E in Q |- *. cbn [String.append] in Q |- *. rewrite (op_none d _ D). cbv iota beta zeta. rewrite <- Q. f_equal.
    unfold trim_spaces. cbn [take_while]. replace (Ascii.eqb d " ") with false; [reflexivity|]. revert d D E Q. clear. intros d D _ _. revert d D. apply dig_case; reflexivity.
  - destruct (open_first _ _ _ _ _ _ V) as (d & r & E & D). pose proof (open_complete OpCaret OpWildcard s b true n m p l rest V B C) as Q.
    rewrite E in Q |- *. cbn [String.append] in Q |- *. rewrite (op_none d _ D). cbv iota beta zeta. rewrite <- Q. f_equal.
    unfold trim_spaces. cbn [take_while]. replace (Ascii.eqb d " ") with false; [reflexivity|]. revert d D E Q. clear. intros d D _ _. revert d D. apply dig_case; reflexivity.
Qed.
Lemma comparator_first s c : comparator_text s c -> exists a r, s = String a r /\ a <> " "%char /\ a <> "*"%char /\ a <> "x"%char /\ a <> "X"%char.
Proof.
  intros T. assert (D : forall d, is_dig d = true -> d <> " "%char /\ d <> "*"%char /\ d <> "x"%char /\ d <> "X"%char) by (apply dig_case; repeat split; discriminate).
  destruct T as [sign o b0 s n m p l w I B0 V|s n m p l V|s n m p l V].
  - cbn [operators In] in I. destruct I as [I|[I|[I|[I|[I|[I|[I|[]]]]]]]]; injection I as <- _; eexists _, _; (split; [reflexivity|repeat split; discriminate]).
  - destruct (open_first _ _ _ _ _ _ V) as (d & r & -> & Hd). exists d, r. split; [reflexivity|apply D; exact Hd].
  - destruct (open_first _ _ _ _ _ _ V) as (d & r & -> & Hd). exists d, r. split; [reflexivity|apply D; exact Hd].
Qed.

Lemma comparators_sound k : forall s l, stops space s -> parse_comparators k s = Some l -> comparators_text s l /\ (List.length l <= k)%nat.
Proof.
  induction k as [|k IH]; intros s l St H; [discriminate|]. cbn [parse_comparators] in H.
  destruct (parse_comparator s) as [[c rest]|] eqn:E; [|discriminate]. apply (comparator_sound s c rest St) in E as (body & b & -> & T & B & R).
  destruct rest as [|a r].
  - injection H as <-. rewrite sapp_nil_r. split; [now constructor|cbn; lia].
  - destruct (Ascii.ascii_dec a ",") as [->|N]; [|exfalso; destruct a as [[] [] [] [] [] [] [] []]; try discriminate H; congruence].
    destruct (parse_comparators k (trim_spaces r)) as [l'|] eqn:E; [|discriminate]. injection H as <-.
    destruct (trim_spec r) as (b' & B' & Er & Sr). apply IH in E as [E L]; [|exact Sr]. split; [|cbn; lia].
    rewrite Er. now constructor.
Qed.
Lemma comparators_first s l : comparators_text s l -> exists a r, s = String a r /\ a <> " "%char /\ a <> "*"%char /\ a <> "x"%char /\ a <> "X"%char.
Proof.
  intros [s' c b T B|s' c b b' t l' T B B' T']; destruct (comparator_first _ _ T) as (a & r & -> & A); eexists a, _; (split; [reflexivity|exact A]).
Qed.
Lemma comparators_complete s l : comparators_text s l -> forall k, (List.length l <= k)%nat -> parse_comparators k s = Some l.
Proof.
  induction 1 as [s c b T B|s c b b' t l T B B' T' IH]; intros k L; (destruct k as [|k]; [cbn in L; lia|]); cbn [parse_comparators].
  - pose proof (comparator_complete s c b "" T B Logic.I) as E. rewrite sapp_nil_r in E. rewrite E. reflexivity.
  - rewrite (comparator_complete s c b ("," ++ b' ++ t) T B eq_refl). cbn [String.append].
    rewrite trim_app; [|exact B'|destruct (comparators_first _ _ T') as (a & r & -> & A & _); cbn; destruct (Ascii.eqb_spec a " "); [contradiction|reflexivity]].
    rewrite IH by (cbn in L; lia). reflexivity.
Qed.

(** A text is accepted with this meaning exactly when the grammar says so. *)
Theorem C91_accepted_texts : forall s r, parse_req s = Some r <-> requirement_text s r.
Proof.
  intros s r. unfold parse_req. split.
  - destruct (trim_spec s) as (b & B & E & St). destruct (wildcard (trim_spaces s)) as [t|] eqn:W.
    + apply wildcard_iff in W as (w & W & Ew). destruct (trim_spec t) as (b' & B' & E' & _).
      destruct (trim_spaces t) as [|a x] eqn:Tt; [|discriminate]. intros [= <-]. rewrite sapp_nil_r in E'. rewrite E, Ew, E'. now constructor.
    + intros H. apply comparators_sound in H as [H L]; [|exact St]. rewrite E. now constructor.
  - intros [b w b' B W B'|b t l B T L].
    + rewrite trim_app; [|exact B|destruct W as [<-|[<-|[<-|[]]]]; reflexivity].
      rewrite (proj2 (wildcard_iff (w ++ b') b')) by eauto. rewrite <- (sapp_nil_r b'), (trim_app b' "" B' Logic.I). reflexivity.
    + destruct (comparators_first _ _ T) as (a & x & E & A1 & A2 & A3 & A4). rewrite trim_app; [|exact B|].
      * destruct (wildcard t) as [y|] eqn:W; [|apply comparators_complete; assumption].
        exfalso. apply wildcard_iff in W as (w & W & Ew). rewrite E in Ew. destruct W as [<-|[<-|[<-|[]]]]; injection Ew as Ea _; congruence.
      * rewrite E. cbn. destruct (Ascii.eqb_spec a " "); [contradiction|reflexivity].
Qed.
(** So the grammar is unambiguous. *)
Theorem C91_unambiguous : forall s r r', requirement_text s r -> requirement_text s r' -> r = r'.
Proof. intros s r r' H H'. apply C91_accepted_texts in H, H'. congruence. Qed.
