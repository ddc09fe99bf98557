(** Proofs about the decoding of JSON objects into structs and the rendering of JSON values. *)
From Coq Require Import Reals Lra.
From Flocq Require Import Core.Core IEEE754.BinarySingleNaN.
From Verif Require Import Base Similarity SimilarityFacts Json SpecJson JsonFacts JsonCodec SpecJsonText
  JsonCodecFacts BodyFacts.
#[local] Open Scope Z_scope.

(** ** Output *)

Section json_ind.
  Context (P : json -> Prop) (Hnull : P JNull) (Hbool : forall b, P (JBool b))
    (Hnum : forall t, P (JNum t)) (Hstr : forall s, P (JStr s))
    (Harr : forall l, Forall P l -> P (JArr l))
    (Hobj : forall ms, Forall (fun m => P (snd m)) ms -> P (JObj ms)).
  Fixpoint json_ind' (v : json) : P v :=
    match v with
    | JNull => Hnull | JBool b => Hbool b | JNum t => Hnum t | JStr s => Hstr s
    | JArr l => Harr l ((fix go l := match l return Forall P l with
                                     | [] => List.Forall_nil _
                                     | x :: l' => List.Forall_cons _ _ _ (json_ind' x) (go l')
                                     end) l)
    | JObj ms => Hobj ms ((fix go ms := match ms return Forall (fun m => P (snd m)) ms with
                                        | [] => List.Forall_nil _
                                        | m :: ms' => List.Forall_cons _ _ _ (json_ind' (snd m)) (go ms')
                                        end) ms)
    end.
End json_ind.

(** A value whose parts can be written. *)
Inductive writable : json -> Prop :=
| writable_null : writable JNull
| writable_bool b : writable (JBool b)
| writable_num t : number t -> writable (JNum t)
| writable_str raw : chars raw -> writable (JStr raw)
| writable_arr l : Forall writable l -> writable (JArr l)
| writable_obj ms : Forall (fun m => chars (fst m) /\ writable (snd m)) ms -> writable (JObj ms).

Lemma join_cons2 sep x y l : join sep (x :: y :: l) = x ++ sep ++ join sep (y :: l).
Proof. unfold join. cbn [map concat]. by rewrite <- !app_assoc. Qed.

Lemma join_elements w l f : ws w -> Forall (fun v => value (f v) v) l -> l <> [] ->
  forall w0 w', ws w0 -> ws w' -> elements (w0 ++ join (44 :: w) (map f l) ++ w') l.
Proof.
  intros Hw. induction 1 as [|v l Hv Hl IH]; intros Hne w0 w' H0 H'; [done|].
  destruct l as [|v' l].
  - cbn. rewrite app_nil_r. by apply elements_one.
  - cbn [map]. rewrite join_cons2, <- !app_assoc. cbn [app].
    apply (elements_more w0 (f v) [] v); [done|done|constructor|].
    apply (IH ltac:(done) w w' Hw H').
Qed.

Definition member_text (sp : list byte) (f : json -> list byte) (p : list byte * json) : list byte :=
  (34 :: fst p ++ 34 :: 58 :: sp) ++ f (snd p).

Lemma member_text_eq sp f k v r : member_text sp f (k, v) ++ r = 34 :: k ++ 34 :: 58 :: sp ++ f v ++ r.
Proof. unfold member_text. cbn. repeat (rewrite <- app_assoc; cbn [app]). done. Qed.

Lemma join_members w sp l (f : json -> list byte) : ws w -> ws sp ->
  Forall (fun m => chars (fst m) /\ value (f (snd m)) (snd m)) l -> l <> [] ->
  forall w0 w', ws w0 -> ws w' ->
  members (w0 ++ join (44 :: w) (map (member_text sp f) l) ++ w') l.
Proof.
  intros Hw Hsp. induction 1 as [|[k v] l [Hk Hv] Hl IH]; intros Hne w0 w' H0 H'; [done|]. cbn [fst snd] in *.
  destruct l as [|m l].
  - cbn [map]. unfold join at 1. cbn [map concat]. rewrite app_nil_r, member_text_eq.
    by apply (members_one w0 k [] sp (f v) w' v); [| |constructor| | |].
  - cbn [map]. rewrite join_cons2, <- !app_assoc, member_text_eq. cbn [app].
    apply (members_more w0 k [] sp (f v) [] v); [done|done|constructor|done|done|constructor|].
    apply (IH ltac:(done) w w' Hw H').
Qed.

Lemma marshal_value v : writable v -> value (marshal v) v.
Proof.
  induction v as [|b|t|s|l IH|ms IH] using json_ind'; intros W; inversion W; subst; cbn [marshal].
  - constructor.
  - destruct b; constructor.
  - by constructor.
  - by constructor.
  - destruct l as [|v l]; [apply (value_no_elements []); constructor|].
    apply value_array. rewrite <- (app_nil_r (join _ _)).
    apply (join_elements [] (v :: l) marshal ltac:(constructor)) with (w0 := []); [|done|constructor|constructor].
    rewrite Forall_forall in *. intros x Hx. apply IH; [done|by apply H0].
  - destruct ms as [|m ms]; [apply (value_no_members []); constructor|].
    apply value_object. rewrite <- (app_nil_r (join _ _)).
    apply (join_members [] [] (m :: ms) marshal ltac:(constructor) ltac:(constructor)) with (w0 := []);
      [|done|constructor|constructor].
    rewrite Forall_forall in *. intros x Hx. split; [by apply H0|]. apply IH; [done|by apply H0].
Qed.

Lemma new_line_ws d : ws (new_line d).
Proof.
  unfold new_line. constructor; [unfold ws_char; lia|].
  apply Forall_replicate. unfold ws_char. lia.
Qed.

Lemma marshal_indent_value v : writable v -> forall d, value (marshal_indent d v) v.
Proof.
  induction v as [|b|t|s|l IH|ms IH] using json_ind'; intros W d.
  - by apply marshal_value.
  - by apply marshal_value.
  - by apply marshal_value.
  - by apply marshal_value.
  - inversion W; subst. destruct l as [|v l]; [apply (value_no_elements []); constructor|].
    cbn [marshal_indent].
    match goal with |- value (91 :: ?a ++ ?b ++ ?c ++ [93]) _ =>
      replace (91 :: a ++ b ++ c ++ [93]) with (91 :: (a ++ b ++ c) ++ [93]) by (by rewrite <- !app_assoc) end.
    apply value_array.
    apply (join_elements (new_line (S d)) (v :: l) (marshal_indent (S d)) (new_line_ws _));
      [|done|apply new_line_ws..].
    rewrite Forall_forall in *. intros x Hx. apply IH; [done|by apply H0].
  - inversion W; subst. destruct ms as [|m ms]; [apply (value_no_members []); constructor|].
    cbn [marshal_indent].
    match goal with |- value (123 :: ?a ++ ?b ++ ?c ++ [125]) _ =>
      replace (123 :: a ++ b ++ c ++ [125]) with (123 :: (a ++ b ++ c) ++ [125]) by (by rewrite <- !app_assoc) end.
    apply value_object.
    apply (join_members (new_line (S d)) [32] (m :: ms) (marshal_indent (S d)) (new_line_ws _));
      [|  |done|apply new_line_ws..].
    + repeat constructor.
    + rewrite Forall_forall in *. intros x Hx. split; [by apply H0|]. apply IH; [done|by apply H0].
Qed.

(** ** Objects into structs *)

Lemma means_scalars s cs : means s cs -> Forall scalar cs.
Proof.
  induction 1 as [|c s cs Hc H1 H2 H3 _ IH|d c s cs He _ IH|h c s cs Hh Hc _ IH|h1 v1 h2 v2 s cs Hh1 Hh2 Hv1 Hv2 _ IH];
    constructor; try done.
  - destruct He; unfold scalar; lia.
  - unfold scalar. lia.
Qed.

Definition ascii_letter (c : Z) : Prop := 65 <= c <= 90 \/ 97 <= c <= 122.

Lemma fold_ascii a c : ascii_letter a -> 0 <= c < 128 ->
  (upper a =? upper c) = true <-> fold_char a = fold_char c.
Proof.
  intros Ha Hc. unfold upper, fold_char, ascii_letter in *. rewrite Z.eqb_eq.
  rewrite (eqb_f a 8490), (eqb_f a 383), (eqb_f c 8490), (eqb_f c 383) by lia.
  destruct (_ && (a <=? 122)) eqn:E1, (_ && (c <=? 122)) eqn:E2, (_ && (a <=? 90)) eqn:E3,
    (_ && (c <=? 90)) eqn:E4; lia.
Qed.

Lemma equal_fold_spec name : Forall ascii_letter name -> forall cs, Forall scalar cs ->
  equal_fold name (utf8_text cs) = true <-> map fold_char cs = map fold_char name.
Proof.
  induction 1 as [|a name Ha _ IH]; intros cs Hcs.
  - destruct cs as [|c cs]; [done|]. apply Forall_cons in Hcs as [Hc _].
    destruct (utf8_nonempty c Hc) as (b & r & E & _). unfold utf8_text. cbn [map concat]. rewrite E. done.
  - destruct cs as [|c cs]; [done|]. apply Forall_cons in Hcs as [Hc Hcs]. specialize (IH cs Hcs).
    unfold utf8_text. cbn [map concat]. fold (utf8_text cs).
    destruct (utf8_nonempty c Hc) as (b & r & E & F & Hb). destruct (decide (c < 128)) as [L|L].
    + assert (E' : utf8 c = [c]) by (unfold utf8; by rewrite ltb_t). rewrite E'. cbn [app equal_fold].
      rewrite ltb_t by lia. rewrite andb_true_iff, IH.
      rewrite fold_ascii by (try done; unfold scalar in Hc; lia).
      split; [intros [-> ->]; done|]. intros [= -> ->]. done.
    + pose proof (decode_utf8 c (utf8_text cs) Hc) as D. rewrite E in D |- *. cbn [app] in *.
      cbn [equal_fold]. rewrite ltb_f by lia. rewrite D. cbn [length]. rewrite skipn_cons, drop_app.
      assert (Fc : fold_char c = if c =? 8490 then 107 else if c =? 383 then 115 else c).
      { unfold fold_char. by rewrite (leb_f c 90), andb_false_r by lia. }
      assert (Fa : fold_char a = if (65 <=? a) && (a <=? 90) then a + 32 else a).
      { unfold fold_char, ascii_letter in *. by rewrite (eqb_f a 8490), (eqb_f a 383) by lia. }
      assert (Ua : forall u, (upper a =? u) = true <-> upper a = u) by (intros; apply Z.eqb_eq).
      destruct (Z.eqb_spec (upper a) 83) as [U|U]; [|destruct (Z.eqb_spec (upper a) 75) as [V|V]].
      * assert (Fa' : fold_char a = 115).
        { rewrite Fa. unfold upper, ascii_letter in *. destruct (_ && (a <=? 122)) eqn:E1, (_ && (a <=? 90)) eqn:E2; lia. }
        rewrite andb_true_iff, Z.eqb_eq, IH. split.
        -- intros [-> ->]. by rewrite Fa'.
        -- intros [= H1 H2]. split; [|done]. rewrite Fa', Fc in H1.
           destruct (Z.eqb_spec c 8490), (Z.eqb_spec c 383); lia.
      * assert (Fa' : fold_char a = 107).
        { rewrite Fa. unfold upper, ascii_letter in *. destruct (_ && (a <=? 122)) eqn:E1, (_ && (a <=? 90)) eqn:E2; lia. }
        rewrite andb_true_iff, Z.eqb_eq, IH. split.
        -- intros [-> ->]. by rewrite Fa'.
        -- intros [= H1 H2]. split; [|done]. rewrite Fa', Fc in H1.
           destruct (Z.eqb_spec c 8490), (Z.eqb_spec c 383); lia.
      * split; [done|]. intros [= H1 _]. exfalso. rewrite Fc, Fa in H1. unfold upper, ascii_letter in *.
        destruct (Z.eqb_spec c 8490), (Z.eqb_spec c 383), (_ && (a <=? 122)) eqn:E1, (_ && (a <=? 90)) eqn:E2; lia.
Qed.

Lemma utf8_text_ascii s : Forall ascii_letter s -> utf8_text s = s /\ Forall scalar s.
Proof.
  unfold utf8_text. induction 1 as [|c s Hc _ [IH1 IH2]]; [done|]. cbn [map concat].
  assert (E : utf8 c = [c]) by (unfold utf8, ascii_letter in *; by rewrite ltb_t by lia).
  rewrite E, IH1. split; [done|]. constructor; [|done]. unfold scalar, ascii_letter in *. lia.
Qed.

(** The names are told apart by their letters whatever the case. *)
Definition names_apart (names : list (list byte)) : Prop :=
  Forall (Forall ascii_letter) names /\ NoDup (map (map fold_char) names).

Lemma names_apart_unique names i j a b : names_apart names ->
  names !! i = Some a -> names !! j = Some b -> same_word a b -> i = j.
Proof.
  intros [_ N] Hi Hj S. eapply (NoDup_lookup (map (map fold_char) names)); [done| |].
  - rewrite list_lookup_fmap, Hi. reflexivity.
  - rewrite list_lookup_fmap, Hj. cbn. by rewrite S.
Qed.

Lemma find_field_spec names cs i : names_apart names -> Forall scalar cs ->
  find_field names (utf8_text cs) = Some i <-> exists n, names !! i = Some n /\ same_word cs n.
Proof.
  intros A Hcs. unfold find_field. pose proof A as [L _].
  assert (EF : forall j n, names !! j = Some n ->
    equal_fold n (utf8_text cs) = true <-> same_word cs n).
  { intros j n Hn. apply equal_fold_spec; [|done]. by eapply Forall_lookup_1. }
  destruct (list_find (fun n => n = utf8_text cs) names) as [[j n]|] eqn:X.
  - apply list_find_Some in X as (Hj & En & _).
    assert (W : same_word cs n).
    { apply (EF j n Hj). rewrite <- En. pose proof (Forall_lookup_1 _ _ _ _ L Hj) as Hl. cbv beta in Hl.
      destruct (utf8_text_ascii n Hl) as [U V]. rewrite <- U at 2. by apply equal_fold_spec. }
    split; [intros [= <-]; eauto|]. intros (n' & Hi & W'). f_equal.
    eapply (names_apart_unique names); [done|done|done|]. unfold same_word in *. congruence.
  - split.
    + intros H. apply fmap_Some in H as ([j n] & Hf & ->). cbn. apply list_find_Some in Hf as (Hj & E & _).
      exists n. split; [done|]. by apply (EF j n Hj).
    + intros (n & Hi & W). apply fmap_Some. 
      destruct (list_find (fun n => equal_fold n (utf8_text cs) = true) names) as [[j n']|] eqn:Y.
      * exists (j, n'). split; [done|]. cbn. apply list_find_Some in Y as (Hj & E & _).
        apply (EF j n' Hj) in E. eapply (names_apart_unique names); [done|done|done|].
        unfold same_word in *. congruence.
      * exfalso. apply list_find_None in Y. eapply Forall_lookup_1 in Y; [|exact Hi]. cbv beta in Y.
        by apply Y, (EF i n Hi).
Qed.

(** ** Values into fields *)

Lemma reads_fun s cs : reads s cs -> forall cs', reads s cs' -> utf8_text cs = utf8_text cs'.
Proof.
  intros H cs' H'. apply unquote_string_reads in H, H'. congruence.
Qed.

Lemma set_string_spec old v y : writable v ->
  set_string old v = Some y <-> (v = JNull /\ y = old) \/ fits_string v y.
Proof.
  intros U. unfold fits_string. destruct v; cbn [set_string].
  - split; [intros [= <-]; by left|]. intros [[_ ->]|(? & ? & ? & _)]; done.
  - split; [done|]. intros [[? _]|(? & ? & ? & _)]; done.
  - split; [done|]. intros [[? _]|(? & ? & ? & _)]; done.
  - inversion U as [| | |? Hc| |]; subst. destruct (reads_total _ Hc) as [cs Hm]. rewrite (unquote_string_reads _ _ Hm). split.
    + intros [= <-]. right. by exists raw, cs.
    + intros [[? _]|(raw' & cs' & [= <-] & Hm' & ->)]; [done|]. f_equal. by eapply reads_fun.
  - split; [done|]. intros [[? _]|(? & ? & ? & _)]; done.
  - split; [done|]. intros [[? _]|(? & ? & ? & _)]; done.
Qed.

Lemma set_uint_spec old v y :
  set_uint old v = Some y <-> (v = JNull /\ y = old) \/ fits_uint64 v y.
Proof.
  unfold fits_uint64. destruct v; cbn [set_uint].
  - split; [intros [= <-]; by left|]. intros [[_ ->]|(? & ? & _)]; done.
  - split; [done|]. intros [[? _]|(? & ? & _)]; done.
  - split.
    + intros H. apply parse_uint_sound in H as (H1 & H2 & H3). right. exists text. repeat split; try done; apply H1 || lia.
    + intros [[? _]|(? & [= <-] & H1 & -> & H2)]; [done|]. by apply parse_uint_digits.
  - split; [done|]. intros [[? _]|(? & ? & _)]; done.
  - split; [done|]. intros [[? _]|(? & ? & _)]; done.
  - split; [done|]. intros [[? _]|(? & ? & _)]; done.
Qed.

Lemma set_float_spec old v y : writable v ->
  set_float old v = Some y <-> (v = JNull /\ y = old) \/ fits_float32 v y.
Proof.
  intros W. unfold fits_float32. destruct v; cbn [set_float].
  - split; [intros [= <-]; by left|]. intros [[_ ->]|(? & ? & ? & _)]; done.
  - split; [done|]. intros [[? _]|(? & ? & ? & _)]; done.
  - inversion W as [| |? N| | |]; subst. split.
    + intros H. destruct (number_has_value _ N) as [r Hr]. pose proof (parse_float_value _ _ Hr) as V.
      destruct (Rlt_bool_spec (Rabs (rnd r)) (bpow radix2 128)) as [L|L]; [|congruence].
      destruct V as (x & Hx & [Hf Hv] & Hs). assert (x = y) as -> by congruence.
      right. exists text, r. done.
    + intros [[? _]|(t & r & [= <-] & Hr & L & Hf & Hv & Hs)]; [done|].
      pose proof (parse_float_value _ _ Hr) as V.
      change (nearest32 r) with (rnd r) in *. rewrite Rlt_bool_true in V by done.
      destruct V as (x & -> & [Hf' Hv'] & Hs'). f_equal. apply B2R_Bsign_inj; [done|done|congruence|].
      destruct (Bsign x), (Bsign y); try done; naive_solver.
  - split; [done|]. intros [[? _]|(? & ? & ? & _)]; done.
  - split; [done|]. intros [[? _]|(? & ? & ? & _)]; done.
  - split; [done|]. intros [[? _]|(? & ? & ? & _)]; done.
Qed.
