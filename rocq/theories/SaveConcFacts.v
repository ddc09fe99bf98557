(** Facts about several SaveNamespaces calls at the same time. *)
From Verif Require Import Base GoIO Similarity Naming Json Service SaveConc ServiceFacts.

Definition text_of (w : saver) : list byte :=
  match w with SvReady d | SvOpen d _ | SvDone d | SvFailed d => d end.

Lemma saves_trans pieces a b c : saves pieces a b -> saves pieces b c -> saves pieces a c.
Proof. induction 1; intros; [done|]. eapply saves_one; eauto. Qed.

Lemma saves_inv pieces (P : list byte * list saver -> Prop) :
  (forall c ws i w c' w', P (c, ws) -> ws !! i = Some w -> save_step pieces (c, w) (c', w') ->
     P (c', <[i := w']> ws)) ->
  forall a b, saves pieces a b -> P a -> P b.
Proof. intros H a b R. induction R as [|c ws i w c' w' s Hw Hs R IH]; intros Ha; [done|]. apply IH. by eapply H. Qed.

Lemma step_text pieces c w c' w' : save_step pieces (c, w) (c', w') -> text_of w' = text_of w.
Proof. intros H. by inversion H. Qed.

(** The texts never change. *)
Lemma saves_texts pieces c ws c' ws' : saves pieces (c, ws) (c', ws') ->
  map text_of ws' = map text_of ws.
Proof.
  intros R. refine (saves_inv pieces (fun s => map text_of (snd s) = map text_of ws) _ _ _ R eq_refl).
  cbn. intros c1 ws1 i w c2 w2 E Hw Hs. rewrite <- E, list_fmap_insert.
  apply list_insert_id. rewrite list_lookup_fmap, Hw. cbn. by rewrite (step_text _ _ _ _ _ Hs).
Qed.

Lemma splice_whole d c : splice 0 d c = d ++ drop (length d) c.
Proof. done. Qed.

(** The text of a call is one of the texts. *)
Lemma text_in ws i w : ws !! i = Some w -> text_of w ∈ map text_of ws.
Proof. intros H. apply elem_of_list_In, in_map, elem_of_list_In. by eapply elem_of_list_lookup_2. Qed.

Lemma texts_insert pieces c w c' w' ws i : ws !! i = Some w -> save_step pieces (c, w) (c', w') ->
  map text_of (<[i := w']> ws) = map text_of ws.
Proof.
  intros Hw Hs. eapply (saves_texts pieces c ws c'). eapply saves_one; [exact Hw|exact Hs|apply saves_none].
Qed.

(** * Whole writes *)

(** At every moment the file is empty, or as before, or begins with the text of a call and
    is as long as the text of a call and ends like it. *)
Definition whole_inv (texts : list (list byte)) (c0 : list byte) (s : list byte * list saver) : Prop :=
  let '(c, ws) := s in
  map text_of ws = texts /\
  (c = [] \/ (c = c0 /\ Forall (fun w => match w with SvReady _ | SvFailed _ => True | _ => False end) ws) \/
   exists d t e, d ∈ texts /\ e ∈ texts /\ c = d ++ t /\ length c = length e /\ last c = last e).

Lemma last_drop {A} (l : list A) n : (n < length l)%nat -> last (drop n l) = last l.
Proof.
  intros H. rewrite <- (take_drop n l) at 2. rewrite last_app.
  destruct (last (drop n l)) eqn:E; [done|]. apply last_None in E.
  apply (f_equal length) in E. rewrite drop_length in E. cbn in E. lia.
Qed.

Lemma whole_inv_saves texts c0 a b : saves false a b -> whole_inv texts c0 a -> whole_inv texts c0 b.
Proof.
  intros R. refine (saves_inv false (whole_inv texts c0) _ _ _ R). clear a b R.
  intros c ws i w c' w' [E H] Hw Hs. split; [by rewrite (texts_insert _ _ _ _ _ _ _ Hw Hs)|].
  assert (same : c' = c -> (match w with SvOpen _ _ => True | _ => exists d, w' = SvFailed d end) ->
    c' = [] \/ (c' = c0 /\ Forall (fun w => match w with SvReady _ | SvFailed _ => True | _ => False end) (<[i:=w']> ws)) \/
    exists d t e, d ∈ texts /\ e ∈ texts /\ c' = d ++ t /\ length c' = length e /\ last c' = last e).
  { intros -> Hn. destruct H as [H|[[H F]|H]]; [by left| |by right; right]. right; left.
    split; [done|]. pose proof F as F'. rewrite Forall_forall in F.
    specialize (F w (elem_of_list_lookup_2 _ _ _ Hw)). destruct w; try done;
    destruct Hn as [d' ->]; by apply Forall_insert. }
  pose proof (text_in _ _ _ Hw) as Hin. rewrite E in Hin.
  inversion Hs; subst; [by left|by apply same; [|eexists]| |by apply same..]. cbn in Hin.
  match goal with H1 : false = false -> _ |- _ => specialize (H1 eq_refl) end. subst n.
  assert (pos = 0%nat) by lia. subst pos. rewrite drop_0, take_ge by lia. rewrite splice_whole.
  right; right. destruct (decide (length d < length c)%nat) as [Hl|Hl].
  - destruct H as [->|[[-> F]|(d' & t & e & Q1 & Q2 & -> & Q3 & Q4)]]; [cbn in Hl; lia| |].
    { rewrite Forall_forall in F. destruct (F (SvOpen d 0)). by eapply elem_of_list_lookup_2. }
    exists d, (drop (length d) (d' ++ t)), e. split; [done|]. split; [done|]. split; [done|].
    split; [rewrite (app_length d), drop_length; lia|].
    rewrite <- Q4, (last_app d), last_drop by done. destruct (last (d' ++ t)) eqn:X; [done|].
    apply last_None in X. rewrite X in Hl. cbn in Hl. lia.
  - exists d, [], d. rewrite drop_ge, app_nil_r by lia. done.
Qed.

(** Without failures: the file is not left empty. *)
Definition full_inv (texts : list (list byte)) (s : list byte * list saver) : Prop :=
  let '(c, ws) := s in
  map text_of ws = texts /\
  (Exists (fun w => match w with SvFailed _ => True | _ => False end) ws \/
   Forall (fun w => match w with SvReady _ => True | _ => False end) ws \/
   Exists (fun w => match w with SvOpen _ 0 => True | _ => False end) ws \/
   exists d t, d ∈ texts /\ c = d ++ t).

Lemma full_inv_saves texts a b : saves false a b -> Forall (fun d => d <> []) texts ->
  full_inv texts a -> full_inv texts b.
Proof.
  intros R Hne. refine (saves_inv false (full_inv texts) _ _ _ R). clear a b R.
  intros c ws i w c' w' [E H] Hw Hs. split; [by rewrite (texts_insert _ _ _ _ _ _ _ Hw Hs)|].
  pose proof (text_in _ _ _ Hw) as Hin. rewrite E in Hin.
  assert (Hi : (i < length ws)%nat) by (by eapply lookup_lt_Some).
  assert (now : forall P : saver -> Prop, P w' -> Exists P (<[i:=w']> ws)).
  { intros P HP. apply Exists_exists. exists w'. split; [|done].
    apply elem_of_list_lookup. exists i. by apply list_lookup_insert. }
  assert (keep : forall P : saver -> Prop, Exists P ws -> ~ P w -> Exists P (<[i:=w']> ws)).
  { intros P HP Hn. apply Exists_exists in HP as (x & Hx & HPx). apply Exists_exists.
    apply elem_of_list_lookup in Hx as [j Hj]. exists x. split; [|done].
    apply elem_of_list_lookup. exists j. rewrite list_lookup_insert_ne; [done|].
    intros <-. rewrite Hw in Hj. injection Hj as <-. done. }
  inversion Hs; subst; cbn in Hin.
  - right; right; left. by apply now.
  - left. by apply now.
  - match goal with H1 : false = false -> _ |- _ => specialize (H1 eq_refl) end. subst n.
    right; right; right. assert (pos = 0%nat) by lia. subst pos. rewrite drop_0, take_ge by lia.
    rewrite splice_whole. by eexists _, _.
  - left. by apply now.
  - destruct H as [H|[H|[H|H]]].
    + left. apply keep; [done|]. intros [].
    + rewrite Forall_forall in H. destruct (H (SvOpen d (length d))). by eapply elem_of_list_lookup_2.
    + right; right; left. apply keep; [done|]. destruct d; [|intros []].
      rewrite Forall_forall in Hne. by destruct (Hne [] Hin).
    + by right; right; right.
  - left. by apply now.
Qed.

(** * One call alone *)

Definition ended (w : saver) : Prop := match w with SvDone _ | SvFailed _ => True | _ => False end.

Definition alone_inv (i : nat) (d : list byte) (s : list byte * list saver) : Prop :=
  let '(c, ws) := s in
  (forall j w, ws !! j = Some w -> j <> i -> ended w) /\
  exists w, ws !! i = Some w /\
    (w = SvReady d \/ w = SvFailed d \/ (w = SvDone d /\ c = d) \/
     exists pos, w = SvOpen d pos /\ (pos <= length d)%nat /\ c = take pos d).

Lemma alone_inv_saves pieces i d a b : saves pieces a b -> alone_inv i d a -> alone_inv i d b.
Proof.
  intros R. refine (saves_inv pieces (alone_inv i d) _ _ _ R). clear a b R.
  intros c ws j w c' w' [Ho (wi & Hi & H)] Hw Hs.
  assert (j = i) as ->.
  { destruct (decide (j = i)) as [|Hn]; [done|]. pose proof (Ho _ _ Hw Hn) as He. by inversion Hs; subst. }
  rewrite Hw in Hi. injection Hi as <-. split.
  { intros k x Hx Hk. rewrite list_lookup_insert_ne in Hx by done. by eapply Ho. }
  exists w'. split; [apply list_lookup_insert; by eapply lookup_lt_Some|].
  assert (text_of w = d) as Ed by (destruct H as [->|[->|[[-> _]|(p & -> & _)]]]; done).
  inversion Hs; subst; cbn in *.
  - right; right; right. exists 0%nat. split; [done|]. split; [lia|done].
  - by right; left.
  - right; right; right. exists (pos + n)%nat. split; [done|]. split; [lia|].
    destruct H as [H|[H|[[H _]|(p & H & Hp & ->)]]]; try done. injection H as <-.
    unfold splice. assert (length (take pos d0) = pos) as El by (rewrite take_length; lia).
    rewrite El, Nat.sub_diag. unfold zeros. cbn [replicate]. rewrite app_nil_r.
    rewrite (take_ge (take pos d0)) by lia. rewrite (drop_ge (take pos d0)) by (rewrite El; lia).
    rewrite app_nil_r. by rewrite <- take_take_drop.
  - by right; left.
  - right; right; left. split; [done|].
    destruct H as [H|[H|[[H _]|(p & H & Hp & ->)]]]; try done. injection H as <-. by rewrite take_ge.
  - by right; left.
Qed.

(** * Nothing else is ever in the file *)
Definition byte_inv (texts : list (list byte)) (c0 : list byte) (s : list byte * list saver) : Prop :=
  let '(c, ws) := s in
  map text_of ws = texts /\
  forall k b, c !! k = Some b -> b = 0 \/ c0 !! k = Some b \/ exists d, d ∈ texts /\ d !! k = Some b.

Lemma splice_lookup pos bs c k b : splice pos bs c !! k = Some b ->
  b = 0 \/ c !! k = Some b \/ ((pos <= k)%nat /\ bs !! (k - pos)%nat = Some b).
Proof.
  unfold splice. set (z := c ++ zeros (pos - length c)).
  assert (Hz : (pos <= length z)%nat).
  { subst z. unfold zeros. rewrite app_length, replicate_length. lia. }
  assert (L : length (take pos z) = pos) by (rewrite take_length; lia).
  intros H. apply lookup_app_Some in H as [H|[Hk H]].
  - apply lookup_take_Some in H as [H _]. subst z. apply lookup_app_Some in H as [H|[_ H]]; [by right; left|].
    left. apply lookup_replicate in H as [-> _]. done.
  - rewrite L in *. apply lookup_app_Some in H as [H|[Hk2 H]]; [by right; right|].
    right; left. rewrite lookup_drop in H. rewrite <- H. f_equal. lia.
Qed.

Lemma byte_inv_saves pieces texts c0 a b : saves pieces a b -> byte_inv texts c0 a -> byte_inv texts c0 b.
Proof.
  intros R. refine (saves_inv pieces (byte_inv texts c0) _ _ _ R). clear a b R.
  intros c ws i w c' w' [E H] Hw Hs. split; [by rewrite (texts_insert _ _ _ _ _ _ _ Hw Hs)|].
  pose proof (text_in _ _ _ Hw) as Hin. rewrite E in Hin.
  inversion Hs; subst; cbn in Hin; try done.
  intros k b Hb. apply splice_lookup in Hb as [->|[Hb|[Hk Hb]]]; [by left|by apply H|].
  right; right. exists d. split; [done|]. apply lookup_take_Some in Hb as [Hb _].
  rewrite lookup_drop in Hb. rewrite <- Hb. f_equal. lia.
Qed.

(** * The texts of lists *)
Lemma marshal_parse_rest l t fuel : (length l + 3 <= fuel)%nat ->
  json_value fuel (marshal l ++ t) = Some (JArr (map elem_json l), t).
Proof.
  intros H. destruct fuel as [|fuel]; [lia|]. destruct l as [|x l]; [done|].
  assert (E2 : json_elems fuel (marshal_elem x ++ marshal_rest l ++ t) = Some (map elem_json (x :: l), t)).
  { apply json_elems_marshal. cbn in H. lia. }
  unfold marshal. change (ascii_bytes "[") with [91]. rewrite <- !app_assoc. cbn [app json_value skip_ws].
  change (is_ws 91) with false. cbv beta iota. rewrite Z.eqb_refl. rewrite E2. by destruct x.
Qed.

Lemma marshal_length l : (length l + 2 <= length (marshal l))%nat.
Proof.
  destruct l as [|x l]; [done|]. unfold marshal. rewrite !app_length. pose proof (marshal_rest_length l).
  destruct x; cbn; lia.
Qed.

Lemma marshal_rest_end l : last (marshal_rest l) = Some 93.
Proof. induction l as [|x l IH]; [done|]. cbn [marshal_rest]. by rewrite !last_app, IH. Qed.
Lemma marshal_end l : last (marshal l) = Some 93.
Proof. destruct l as [|x l]; [done|]. unfold marshal. by rewrite !last_app, marshal_rest_end. Qed.

Lemma skip_ws_last s : last s = Some 93 -> skip_ws s <> [].
Proof.
  induction s as [|b s IH]; [done|]. intros H. cbn [skip_ws]. destruct (is_ws b) eqn:W; [|done].
  destruct s as [|b' s]; [cbn in H; injection H as ->; done|]. apply IH. done.
Qed.

(** A text followed by something that ends like a text is not JSON. *)
Lemma marshal_followed l t : last t = Some 93 -> json_parse (marshal l ++ t) = None.
Proof.
  intros H. unfold json_parse. rewrite marshal_parse_rest.
  2: { rewrite app_length. pose proof (marshal_length l). lia. }
  destruct (_ <=? _); [|done]. pose proof (skip_ws_last t H). by destruct (skip_ws t).
Qed.
