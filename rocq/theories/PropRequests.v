(** The texts of requests: C85. *)
From Coq Require Import Reals Lra.
From Flocq Require Import Core.Core IEEE754.BinarySingleNaN.
From Verif Require Import Base GoIO Similarity SimilarityFacts Naming Json SpecJson JsonFacts JsonCodec
  SpecJsonText JsonCodecFacts BodyFacts JsonStructFacts Service Api ApiText ServiceSession SpecNames NamesFacts
  ServiceFacts ApiFacts PropService.
#[local] Open Scope Z_scope.

(** ** Specification *)

(** The field of this name, which held [x0], holds [x] after an object was read. *)
Definition field_said {A} (fits : json -> A -> Prop) (x0 : A) (name : list Z)
    (ms : list (list byte * json)) (x : A) : Prop :=
  exists l, picked name ms l /\ stored fits x0 l x.

Definition says_create (ms : list (list byte * json)) (b : create_body) : Prop :=
  field_said fits_string [] (ascii_bytes "name") ms (cb_name b) /\
  field_said fits_string [] (ascii_bytes "type") ms (cb_type b) /\
  field_said fits_uint64 0 (ascii_bytes "maxSimilarProfiles") ms (cb_max b) /\
  field_said fits_float32 (B754_zero false) (ascii_bytes "dislikeFactor") ms (cb_dislike b).
Definition says_update (ms : list (list byte * json)) (b : update_body) : Prop :=
  field_said fits_string [] (ascii_bytes "name") ms (ub_name b) /\
  field_said fits_uint64 0 (ascii_bytes "maxSimilarProfiles") ms (ub_max b) /\
  field_said fits_float32 (B754_zero false) (ascii_bytes "dislikeFactor") ms (ub_dislike b).

(** ** Proofs *)

Lemma utf8_text_inj cs : Forall scalar cs -> forall cs', Forall scalar cs' ->
  utf8_text cs = utf8_text cs' -> cs = cs'.
Proof.
  unfold utf8_text. induction 1 as [|c cs Hc _ IH]; intros cs' H' E.
  - destruct cs' as [|c' cs']; [done|]. apply Forall_cons in H' as [Hc' _].
    destruct (utf8_nonempty c' Hc') as (b & r & E' & _). cbn in E. by rewrite E' in E.
  - destruct cs' as [|c' cs'].
    { destruct (utf8_nonempty c Hc) as (b & r & E' & _). cbn in E. by rewrite E' in E. }
    apply Forall_cons in H' as [Hc' H']. cbn in E.
    pose proof (decode_utf8 c (concat (map utf8 cs)) Hc) as D1.
    pose proof (decode_utf8 c' (concat (map utf8 cs')) Hc') as D2. rewrite E, D2 in D1.
    injection D1 as -> _. apply app_inv_head in E. f_equal. by apply IH.
Qed.

Lemma reads_det s cs cs' : reads s cs -> reads s cs' -> cs = cs'.
Proof.
  intros H H'. apply utf8_text_inj; [by eapply reads_scalars..|]. by eapply reads_fun.
Qed.

#[local] Instance same_word_dec a b : Decision (same_word a b).
Proof. unfold same_word. apply _. Defined.

Lemma field_said_other {A} (fits : json -> A -> Prop) x0 name k cs v ms x :
  reads k cs -> ~ same_word cs name ->
  field_said fits x0 name ((k, v) :: ms) x <-> field_said fits x0 name ms x.
Proof.
  intros Hk Hn. split.
  - intros (l & P & S). inversion P as [|? cs' ? ? l' Hk' W P'|? cs' ? ? l' Hk' W P']; subst.
    + rewrite (reads_det _ _ _ Hk' Hk) in W. done.
    + by exists l.
  - intros (l & P & S). exists l. split; [|done]. by eapply picked_other.
Qed.

Lemma field_said_this {A} (fits : json -> A -> Prop) (set : A -> json -> option A) x0 name k cs v ms x :
  reads k cs -> same_word cs name ->
  (forall y, set x0 v = Some y <-> (v = JNull /\ y = x0) \/ fits v y) ->
  field_said fits x0 name ((k, v) :: ms) x <-> exists y, set x0 v = Some y /\ field_said fits y name ms x.
Proof.
  intros Hk Hw Hset. split.
  - intros (l & P & S). inversion P as [|? cs' ? ? l' Hk' W P'|? cs' ? ? l' Hk' W P']; subst.
    2: { rewrite (reads_det _ _ _ Hk' Hk) in W. done. }
    inversion S as [|? ? ? S'|? ? y ? ? F S']; subst.
    + exists x0. split; [apply Hset; by left|]. by exists l'.
    + exists y. split; [apply Hset; by right|]. by exists l'.
  - intros (y & Hy & l & P & S). exists (v :: l). split; [by eapply picked_this|].
    apply Hset in Hy as [[-> ->]|F]; [by apply stored_null|by eapply stored_value].
Qed.

Lemma field_said_nil {A} (fits : json -> A -> Prop) x0 name x : field_said fits x0 name [] x <-> x = x0.
Proof.
  split.
  - intros (l & P & S). inversion P; subst. by inversion S.
  - intros ->. exists []. split; constructor.
Qed.

(** Members whose values can be read. *)
Definition readable (m : list byte * json) : Prop :=
  (exists cs, reads (fst m) cs) /\ writable (snd m).

#[local] Instance ascii_letter_dec c : Decision (ascii_letter c).
Proof. unfold ascii_letter. apply _. Defined.
Lemma create_names_apart : names_apart create_names.
Proof.
  split; apply (bool_decide_unpack _); by vm_compute.
Qed.
Lemma update_names_apart : names_apart update_names.
Proof.
  split; apply (bool_decide_unpack _); by vm_compute.
Qed.

Lemma no_field names cs : names_apart names -> Forall scalar cs -> find_field names (utf8_text cs) = None ->
  forall n, n ∈ names -> ~ same_word cs n.
Proof.
  intros A S F n Hn W. apply elem_of_list_lookup in Hn as [i Hi].
  assert (find_field names (utf8_text cs) = Some i) by (apply find_field_spec; eauto). congruence.
Qed.
Lemma the_field names cs i : names_apart names -> Forall scalar cs -> find_field names (utf8_text cs) = Some i ->
  exists n, names !! i = Some n /\ same_word cs n /\ forall j m, names !! j = Some m -> j <> i -> ~ same_word cs m.
Proof.
  intros A S F. pose proof F as (n & Hn & W)%find_field_spec; [|done|done].
  exists n. split; [done|]. split; [done|]. intros j m Hm Hj W'. destruct Hj.
  eapply (names_apart_unique names); [done|done|done|]. unfold same_word in *. congruence.
Qed.

Lemma some_iff {A} (y : A) (P : A -> Prop) : (exists z, Some y = Some z /\ P z) <-> P y.
Proof. split; [by intros (z & [= <-] & H)|]. intros H. by exists y. Qed.
Lemma none_iff {A} (P : A -> Prop) : (exists z, None = Some z /\ P z) <-> False.
Proof. split; [by intros (z & H & _)|done]. Qed.

Lemma create_members n0 n1 n2 n3 ms : create_names = [n0; n1; n2; n3] -> Forall readable ms -> forall b0 b,
  decode_members create_names create_set ms b0 = Some b <->
  field_said fits_string (cb_name b0) n0 ms (cb_name b) /\
  field_said fits_string (cb_type b0) n1 ms (cb_type b) /\
  field_said fits_uint64 (cb_max b0) n2 ms (cb_max b) /\
  field_said fits_float32 (cb_dislike b0) n3 ms (cb_dislike b).
Proof.
  intros E. pose proof create_names_apart as A. rewrite E in *. clear E.
  induction 1 as [|[k v] ms [[cs Hk] W] _ IH]; intros b0 b; cbn [decode_members fst snd] in *.
  - rewrite !field_said_nil. split; [by intros [= <-]|]. destruct b, b0. cbn. by intros (-> & -> & -> & ->).
  - rewrite (unquote_string_reads _ _ Hk). pose proof (reads_scalars _ _ Hk) as Hs.
    destruct (find_field [n0; n1; n2; n3] (utf8_text cs)) as [i|] eqn:F.
    2: { pose proof (no_field _ _ A Hs F) as N.
         assert (N0 : ~ same_word cs n0) by (apply N; set_solver). assert (N1 : ~ same_word cs n1) by (apply N; set_solver).
         assert (N2 : ~ same_word cs n2) by (apply N; set_solver). assert (N3 : ~ same_word cs n3) by (apply N; set_solver).
         rewrite IH, !(field_said_other _ _ _ k cs v ms) by assumption. reflexivity. }
    destruct (the_field _ _ i A Hs F) as (n & Hn & Hw & No).
    pose proof (No 0%nat _ eq_refl) as N0. pose proof (No 1%nat _ eq_refl) as N1.
    pose proof (No 2%nat _ eq_refl) as N2. pose proof (No 3%nat _ eq_refl) as N3.
    destruct i as [|[|[|[|i]]]]; [| | | |by destruct i].
    all: injection Hn as <-; cbn [create_set].
    + rewrite (field_said_this fits_string set_string _ _ k cs v ms) by (assumption || (intros; apply set_string_spec; assumption)).
      rewrite !(field_said_other _ _ _ k cs v ms) by (first [assumption | apply N1; discriminate | apply N2; discriminate | apply N3; discriminate]).
      destruct (set_string (cb_name b0) v) as [y|]; cbn; [rewrite IH, some_iff; cbn; tauto|rewrite none_iff; split; [discriminate|tauto]].
    + rewrite (field_said_this fits_string set_string _ n1 k cs v ms) by (assumption || (intros; apply set_string_spec; assumption)).
      rewrite !(field_said_other _ _ _ k cs v ms) by (first [assumption | apply N0; discriminate | apply N2; discriminate | apply N3; discriminate]).
      destruct (set_string (cb_type b0) v) as [y|]; cbn; [rewrite IH, some_iff; cbn; tauto|rewrite none_iff; split; [discriminate|tauto]].
    + rewrite (field_said_this fits_uint64 set_uint _ _ k cs v ms) by (assumption || (intros; apply set_uint_spec; assumption)).
      rewrite !(field_said_other _ _ _ k cs v ms) by (first [assumption | apply N0; discriminate | apply N1; discriminate | apply N3; discriminate]).
      destruct (set_uint (cb_max b0) v) as [y|]; cbn; [rewrite IH, some_iff; cbn; tauto|rewrite none_iff; split; [discriminate|tauto]].
    + rewrite (field_said_this fits_float32 set_float _ _ k cs v ms) by (assumption || (intros; apply set_float_spec; assumption)).
      rewrite !(field_said_other _ _ _ k cs v ms) by (first [assumption | apply N0; discriminate | apply N1; discriminate | apply N2; discriminate]).
      destruct (set_float (cb_dislike b0) v) as [y|]; cbn; [rewrite IH, some_iff; cbn; tauto|rewrite none_iff; split; [discriminate|tauto]].
Qed.

Lemma update_members n0 n1 n2 ms : update_names = [n0; n1; n2] -> Forall readable ms -> forall b0 b,
  decode_members update_names update_set ms b0 = Some b <->
  field_said fits_string (ub_name b0) n0 ms (ub_name b) /\
  field_said fits_uint64 (ub_max b0) n1 ms (ub_max b) /\
  field_said fits_float32 (ub_dislike b0) n2 ms (ub_dislike b).
Proof.
  intros E. pose proof update_names_apart as A. rewrite E in *. clear E.
  induction 1 as [|[k v] ms [[cs Hk] W] _ IH]; intros b0 b; cbn [decode_members fst snd] in *.
  - rewrite !field_said_nil. split; [by intros [= <-]|]. destruct b, b0. cbn. by intros (-> & -> & ->).
  - rewrite (unquote_string_reads _ _ Hk). pose proof (reads_scalars _ _ Hk) as Hs.
    destruct (find_field [n0; n1; n2] (utf8_text cs)) as [i|] eqn:F.
    2: { pose proof (no_field _ _ A Hs F) as N.
         assert (N0 : ~ same_word cs n0) by (apply N; set_solver). assert (N1 : ~ same_word cs n1) by (apply N; set_solver).
         assert (N2 : ~ same_word cs n2) by (apply N; set_solver).
         rewrite IH, !(field_said_other _ _ _ k cs v ms) by assumption. reflexivity. }
    destruct (the_field _ _ i A Hs F) as (n & Hn & Hw & No).
    pose proof (No 0%nat _ eq_refl) as N0. pose proof (No 1%nat _ eq_refl) as N1.
    pose proof (No 2%nat _ eq_refl) as N2.
    destruct i as [|[|[|i]]]; [| | |by destruct i].
    all: injection Hn as <-; cbn [update_set].
    + rewrite (field_said_this fits_string set_string _ _ k cs v ms) by (assumption || (intros; apply set_string_spec; assumption)).
      rewrite !(field_said_other _ _ _ k cs v ms) by (first [assumption | apply N1; discriminate | apply N2; discriminate]).
      destruct (set_string (ub_name b0) v) as [y|]; cbn; [rewrite IH, some_iff; cbn; tauto|rewrite none_iff; split; [discriminate|tauto]].
    + rewrite (field_said_this fits_uint64 set_uint _ _ k cs v ms) by (assumption || (intros; apply set_uint_spec; assumption)).
      rewrite !(field_said_other _ _ _ k cs v ms) by (first [assumption | apply N0; discriminate | apply N2; discriminate]).
      destruct (set_uint (ub_max b0) v) as [y|]; cbn; [rewrite IH, some_iff; cbn; tauto|rewrite none_iff; split; [discriminate|tauto]].
    + rewrite (field_said_this fits_float32 set_float _ _ k cs v ms) by (assumption || (intros; apply set_float_spec; assumption)).
      rewrite !(field_said_other _ _ _ k cs v ms) by (first [assumption | apply N0; discriminate | apply N1; discriminate]).
      destruct (set_float (ub_dislike b0) v) as [y|]; cbn; [rewrite IH, some_iff; cbn; tauto|rewrite none_iff; split; [discriminate|tauto]].
Qed.

Lemma value_writable :
  (forall t v, value t v -> writable v) /\
  (forall b l, elements b l -> Forall writable l) /\
  (forall b l, members b l -> Forall (fun m => chars (fst m) /\ writable (snd m)) l).
Proof. apply grammar_ind; intros; try (constructor; done); try (constructor; constructor); repeat constructor; done. Qed.

Lemma object_readable t ms : value t (JObj ms) -> Forall readable ms.
Proof.
  intros V. apply value_writable in V. inversion V as [| | | | |? W]; subst.
  eapply Forall_impl; [exact W|]. intros m [Hc Hw]. split; [by apply reads_total|done].
Qed.

Lemma object_prefix w t ms rest : ws w -> value t (JObj ms) ->
  json_value (2 * length (w ++ t ++ rest) + 2) (w ++ t ++ rest) = Some (JObj ms, rest).
Proof.
  intros Hw V. destruct (2 * length (w ++ t ++ rest) + 2)%nat as [|fuel] eqn:Ef; [lia|].
  rewrite json_value_eq, skip_ws_app by done. rewrite !app_length in Ef.
  inversion V as [| | | | | | |w' Hw' Et|b l Hb Et]; subst; cbn [app]; rewrite skip_ws_stop by done;
    change (123 =? 91) with false; change (123 =? 123) with true; cbv iota; rewrite <- app_assoc.
  - rewrite skip_ws_app by done. cbn [app]. rewrite skip_ws_stop by done. by rewrite after_char_eq.
  - destruct (members_first b ms Hb ([125] ++ rest)) as (s & E). rewrite E.
    rewrite after_char_ne by done. cbn [app].
    rewrite (proj2 (proj2 complete) b ms Hb); [done|]. cbn in Ef. rewrite app_length in Ef. lia.
Qed.

Lemma create_says w t ms rest : ws w -> value t (JObj ms) -> nested 10000 (JObj ms) ->
  forall b, decode_create (w ++ t ++ rest) = Some b <-> says_create ms b.
Proof.
  intros Hw V N b. unfold decode_create, decode_struct.
  rewrite (object_prefix w t ms rest Hw V), (proj2 (depth_ok _) N).
  apply (create_members _ _ _ _ ms eq_refl). by eapply object_readable.
Qed.
Lemma update_says w t ms rest : ws w -> value t (JObj ms) -> nested 10000 (JObj ms) ->
  forall b, decode_update (w ++ t ++ rest) = Some b <-> says_update ms b.
Proof.
  intros Hw V N b. unfold decode_update, decode_struct.
  rewrite (object_prefix w t ms rest Hw V), (proj2 (depth_ok _) N).
  apply (update_members _ _ _ ms eq_refl). by eapply object_readable.
Qed.

Lemma decimal_pos s : Forall dec s -> 0 <= decimal_value s.
Proof.
  induction 1 as [|c s Hc _ IH]; cbn [decimal_value]; [lia|]. unfold dec in Hc.
  pose proof (Z.pow_nonneg 10 (Z.of_nat (length s)) ltac:(lia)). nia.
Qed.
Lemma uint_said ms name n x : 0 <= n < 2 ^ 64 -> field_said fits_uint64 n name ms x -> 0 <= x < 2 ^ 64.
Proof.
  intros H (l & _ & S). induction S as [|? ? ? _ IH|x v x' l y F _ IH]; [done|by apply IH|].
  apply IH. destruct F as (t & _ & [_ D] & -> & L). split; [by apply decimal_pos|done].
Qed.
Lemma create_max ms b : says_create ms b -> 0 <= cb_max b < 2 ^ 64.
Proof. intros (_ & _ & H & _). apply (uint_said ms (ascii_bytes "maxSimilarProfiles") 0); [lia|done]. Qed.

(** ** Theorems *)

(** A POST whose text begins with an object.  The four fields are read from the object alone,
    in one way; whatever follows the object is ignored. *)
Theorem C85_post_object : forall w t ms rest w1 w2 s, running s ->
  ws w -> value t (JObj ms) -> nested 10000 (JObj ms) ->
  let q := text_request MPost collection_path (w ++ t ++ rest) w1 w2 in
  exists s' st body, serve q s = (s', Ret (Response st body)) /\ (st = 201 \/ st = 400) /\
  (forall b b', says_create ms b -> says_create ms b' -> b = b') /\
  (st = 201 -> exists b, says_create ms b /\ acceptable s b /\
     body = PNamespace (NsResponse (cb_name b) (ascii_bytes "like") (if cb_max b =? 0 then 1000 else cb_max b))) /\
  ((forall b, says_create ms b -> ~ acceptable s b) -> st = 400 /\ s' = s) /\
  ((forall b, ~ says_create ms b) -> st = 400 /\ s' = s /\ body = PError CDecode) /\
  (forall b, says_create ms b -> acceptable s b -> B2R (cb_dislike b) <> 0%R -> w1 = WOk -> st = 201).
Proof.
  intros w t ms rest w1 w2 s R Hw V Hd q.
  pose proof (create_says w t ms rest Hw V Hd) as Says.
  destruct (C50_create_validates q s R eq_refl eq_refl) as (s' & st & body & E & H1 & H2 & H3 & H4).
  { intros b Hb. apply Says in Hb. apply (create_max ms b Hb). }
  exists s', st, body. split; [done|]. split; [done|]. split.
  { intros b b' Hb Hb'. apply Says in Hb, Hb'. congruence. }
  split; [|split; [|split]].
  - intros ->. destruct (H2 eq_refl) as (b & Hb & A). exists b. split; [by apply Says|]. split; [done|].
    destruct (C65_created_is_listed q s s' body (Request MGet collection_path None None w1 w2)
      R eq_refl eq_refl E eq_refl eq_refl) as (b' & before & r & Hb' & -> & -> & _).
    by rewrite Hb in Hb'; injection Hb' as <-.
  - intros N. apply H3. intros b Hb. by apply N, Says.
  - intros N. assert (D : decode_create (w ++ t ++ rest) = None).
    { destruct (decode_create (w ++ t ++ rest)) as [b|]; [|done].
      destruct (N b). by apply Says. }
    assert (E' : serve q s = (s, Ret undecodable)).
    { unfold serve, recovery. replace (dispatch (routes q) q) with (handle_create w1 (decode_create (w ++ t ++ rest)))
        by reflexivity. by rewrite D. }
    rewrite E' in E. by injection E as <- <- <-.
  - intros b Hb A Hz ->. apply Says in Hb. by apply (H4 b).
Qed.
Print Assumptions C85_post_object.

(** A POST whose text does not begin with an object, begins with one of more than 10000 levels,
    or is broken, is refused. *)
Theorem C85_post_other : forall text w1 w2 s, running s ->
  (forall w t ms rest, ws w -> value t (JObj ms) -> nested 10000 (JObj ms) -> text <> w ++ t ++ rest) ->
  exists c, serve (text_request MPost collection_path text w1 w2) s = (s, Ret (Response 400 (PError c))).
Proof.
  intros text w1 w2 s R N. set (q := text_request _ _ _ _ _).
  assert (D : decode_create text = None \/ decode_create text = Some no_create).
  { unfold decode_create, decode_struct.
    destruct (json_value (2 * length text + 2) text) as [[v r]|] eqn:E; [|by left].
    destruct (json_depth v <=? max_nesting) eqn:Ed; [|by left]. apply depth_ok in Ed.
    destruct v; try (by left); [by right|].
    apply (proj1 (sound _)) in E as (w & t & Hw & V & ->). by destruct (N w t l r Hw V Ed). }
  unfold serve, recovery. replace (dispatch (routes q) q) with (handle_create w1 (decode_create text)) by reflexivity.
  destruct D as [->| ->]; by eexists.
Qed.
Print Assumptions C85_post_other.

(** An unknown member can refuse a creation: one of 10000 levels. *)
Theorem C85_post_deep : forall w t ms rest w1 w2 s, running s ->
  ws w -> value t (JObj ms) -> ~ nested 10000 (JObj ms) ->
  serve (text_request MPost collection_path (w ++ t ++ rest) w1 w2) s = (s, Ret (Response 400 (PError CDecode))).
Proof.
  intros w t ms rest w1 w2 s R Hw V Hd. set (q := text_request _ _ _ _ _).
  assert (D : decode_create (w ++ t ++ rest) = None).
  { unfold decode_create, decode_struct. by rewrite (object_prefix w t ms rest Hw V), (proj2 (depth_over _) Hd). }
  unfold serve, recovery.
  replace (dispatch (routes q) q) with (handle_create w1 (decode_create (w ++ t ++ rest))) by reflexivity.
  by rewrite D.
Qed.
Print Assumptions C85_post_deep.

(** The body of a PUT, as its handler receives it. *)
Theorem C85_put_object : forall w t ms rest, ws w -> value t (JObj ms) -> nested 10000 (JObj ms) ->
  forall b, decode_update (w ++ t ++ rest) = Some b <-> says_update ms b.
Proof. apply update_says. Qed.
Print Assumptions C85_put_object.

(** A key in capitals, a member given twice, an escaped letter, keys that are no fields (one of
    them half a surrogate pair), and text after the object. *)
Definition case_members : list (list byte * json) :=
  [(ascii_bytes "NAME", JStr (ascii_bytes "x")); (ascii_bytes "name", JStr (ascii_bytes "\u0061"));
   (ascii_bytes "type", JStr (ascii_bytes "like")); (ascii_bytes "maxSimilarProfiles", JNum (ascii_bytes "7"));
   (ascii_bytes "\ud83e", JArr [JNull]); (ascii_bytes "dislikeFactor", JNum (ascii_bytes "1.0"))].
Definition case_object : list byte :=
  ascii_bytes "{""NAME"":""x"",""name"":""\u0061"",""type"":""like"",""maxSimilarProfiles"":7,""\ud83e"":[null],""dislikeFactor"":1.0}".

Lemma case_value : value case_object (JObj case_members).
Proof.
  destruct (json_value (2 * length case_object + 2) case_object) as [[v r]|] eqn:E; [|vm_compute in E; discriminate].
  assert (X : v = JObj case_members /\ r = []) by (vm_compute in E; by injection E as <- <-).
  destruct X as [-> ->]. apply (proj1 (sound _)) in E as (w & t & Hw & V & Es). rewrite app_nil_r in Es.
  destruct w as [|c w]; [by rewrite Es|]. exfalso. apply Forall_cons in Hw as [Hc _].
  assert (c = 123) by (vm_compute in Es; by injection Es). unfold ws_char in Hc. lia.
Qed.

Lemma case_nested : nested 10000 (JObj case_members).
Proof. by apply depth_ok. Qed.

Definition case_text : list byte := ascii_bytes " " ++ case_object ++ ascii_bytes "]]".

Definition like_case (b : option create_body) : bool :=
  match b with
  | Some (CreateBody n t m x) =>
    bool_decide (n = ascii_bytes "a") && bool_decide (t = ascii_bytes "like") && (m =? 7) &&
    match x with B754_finite false mx ex _ => Pos.eqb mx 8388608 && (ex =? -23) | _ => false end
  | None => false
  end.
Lemma case_decoded : exists x, decode_create case_text = Some (CreateBody (ascii_bytes "a") (ascii_bytes "like") 7 x) /\
  is_finite x = true /\ B2R x = 1%R.
Proof.
  assert (H : like_case (decode_create case_text) = true) by (vm_compute; reflexivity).
  revert H. generalize (decode_create case_text). intros [[n t m x]|]; [|done].
  unfold like_case. rewrite !andb_true_iff, !bool_decide_eq_true, Z.eqb_eq. intros [[[-> ->] ->] Hx].
  exists x. split; [done|]. destruct x as [| | |[] mx ex Hb]; try done.
  apply andb_true_iff in Hx as [->%Pos.eqb_eq ->%Z.eqb_eq]. split; [done|].
  unfold B2R, F2R. cbn [cond_Zopp Fnum Fexp]. change (bpow radix2 (-23)) with (/ IZR 8388608)%R. apply Rinv_r. lra.
Qed.

Example C85_case :
  exists b s', says_create case_members b /\ acceptable ex_fresh b /\ cb_name b = ascii_bytes "a" /\ cb_max b = 7 /\
  serve (text_request MPost collection_path (ascii_bytes " " ++ case_object ++ ascii_bytes "]]") WOk WOk) ex_fresh =
    (s', Ret (Response 201 (PNamespace (NsResponse (ascii_bytes "a") (ascii_bytes "like") 7)))).
Proof.
  assert (Hw : ws (ascii_bytes " ")) by (constructor; [by left|constructor]).
  destruct case_decoded as (x & E & F & V).
  apply (create_says (ascii_bytes " ") case_object case_members (ascii_bytes "]]") Hw case_value case_nested) in E as S.
  set (b := CreateBody _ _ 7 x) in *.
  assert (A : acceptable ex_fresh b).
  { split; [|split; [done|split]].
    - exists 97, []. split; [done|]. split; [unfold lower_letter; lia|constructor].
    - split; [apply F|]. cbn [cb_dislike b]. rewrite V. lra.
    - by apply (bool_decide_unpack _). }
  destruct (C85_post_object (ascii_bytes " ") case_object case_members (ascii_bytes "]]") WOk WOk ex_fresh
    ex_fresh_running Hw case_value case_nested) as (s' & st & body & Es & _ & U & H1 & _ & _ & H2).
  assert (H201 : st = 201). { apply (H2 b S A); [|done]. cbn [cb_dislike b]. rewrite V. lra. }
  destruct (H1 H201) as (b' & S' & _ & Eb). rewrite (U b' b S' S) in Eb. subst st body.
  exists b, s'. split; [done|]. split; [done|]. split; [done|]. split; [done|]. exact Es.
Qed.
