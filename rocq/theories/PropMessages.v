(** What a refused client is told to be wrong with a field: C111. *)
From Coq Require Import Reals Lra.
From Flocq Require Import Core.Core IEEE754.BinarySingleNaN.
From Verif Require Import Base GoIO Similarity SimilarityFacts Naming Json Service Api ServiceSession
  SpecNames NamesFacts ServiceFacts ApiFacts PropService PropHandlers PropFields.
#[local] Open Scope Z_scope.

(** ** Specification *)

(** The rules of the documentation that a value can break. *)
Inductive rule := Given | Characters | FirstLetter | KnownType | NotBelow | NotAbove.

(** [breaks b f r]: the value of field [f] breaks rule [r]; of a field that is left out only
    [Given] can be said. *)
Definition breaks (b : create_body) (f : field) (r : rule) : Prop :=
  match r, f with
  | Given, (FName | FType | FFactor) => left_out b f
  | Characters, FName =>
    cb_name b <> [] /\ ~ Forall (fun c => lower_letter c \/ digit c) (cb_name b)
  | FirstLetter, FName =>
    Forall (fun c => lower_letter c \/ digit c) (cb_name b) /\ exists c r, cb_name b = c :: r /\ digit c
  | KnownType, FType => cb_type b <> [] /\ cb_type b <> ascii_bytes "like"
  | NotBelow, FFactor => is_finite (cb_dislike b) = true /\ (B2R (cb_dislike b) < 0)%R
  | NotAbove, FFactor => is_finite (cb_dislike b) = true /\ (1 < B2R (cb_dislike b))%R
  | _, _ => False
  end.

(** The texts the service has. *)
Definition text_of (r : rule) : list byte :=
  match r with
  | Given => ascii_bytes "This field is required"
  | FirstLetter => ascii_bytes "invalid namespace name"
  | _ => ascii_bytes "Unknown error"
  end.

(** A POST of [b] is refused and [e] is said about it. *)
Definition told (b : create_body) (e : field_error) : Prop :=
  exists q s s' l, running s /\ rq_method q = MPost /\ rq_path q = collection_path /\
    rq_create q = Some b /\ serve q s = (s', Ret (Response 400 (PError (CFields l)))) /\ e ∈ l.

(** ** Proofs *)

Lemma check_field_cases f tags e : e ∈ check_field f tags ->
  exists t p, e = FieldError (ascii_bytes f) (get_field_error_msg (ascii_bytes t) (ascii_bytes p)) /\
    first_failure tags = Some (t, p).
Proof.
  unfold check_field. destruct (first_failure tags) as [[t p]|]; intros H; [|by apply elem_of_nil in H].
  apply elem_of_list_singleton in H as ->. eauto.
Qed.

(** The sign of a factor that fails a bound. *)
Lemma factor_bounds x : is_finite x = true ->
  (f32_leb (f32_of_int 0) x = false -> (B2R x < 0)%R) /\
  (f32_leb x (f32_of_int 1) = false -> (1 < B2R x)%R).
Proof.
  intros F. destruct f32_zero_val as [F0 V0]. destruct f32_one_val as [F1 V1].
  split; intros H; apply leb_false_val in H; try done; rewrite ?V0, ?V1 in H; lra.
Qed.

Lemma factor_zero x : is_finite x = true -> tag_required_float x = false -> B2R x = 0%R.
Proof. by destruct x. Qed.

Lemma first_rest s : Forall (fun c => lower_letter c \/ digit c) s -> s <> [] -> ~ api_name_ok s ->
  exists c r, s = c :: r /\ digit c.
Proof.
  intros H Hne N. destruct s as [|c r]; [done|]. exists c, r. split; [done|].
  apply Forall_cons in H as [[Hc|Hc] Hr]; [|done]. destruct N. by exists c, r.
Qed.

(** One rule is broken by a field that does not fit, and no other. *)
Lemma rule_unique b f r1 r2 : breaks b f r1 -> breaks b f r2 -> r1 = r2.
Proof.
  destruct f, r1, r2; cbn; try done; intros H1 H2; exfalso.
  all: repeat match goal with
    | H : _ /\ _ |- _ => destruct H
    | H : exists _, _ |- _ => destruct H
    end; try lra; congruence.
Qed.

Lemma rule_exists b f : 0 <= cb_max b -> is_finite (cb_dislike b) = true ->
  unfit b f <-> exists r, breaks b f r.
Proof.
  intros Hmax F. destruct f; cbn [unfit].
  - split.
    + intros N. destruct (decide (cb_name b = [])) as [|Hne]; [by exists Given|].
      destruct (decide (Forall (fun c => lower_letter c \/ digit c) (cb_name b))) as [Hf|Hf];
        [|by exists Characters].
      exists FirstLetter. split; [done|]. by apply first_rest.
    + intros [[] H]; cbn in H; try done; intros (c & r & E & Hc & Hr); rewrite E in H.
      * done.
      * destruct H as [_ H]. destruct H. constructor; [by left|done].
      * destruct H as (_ & c' & r' & [= <- <-] & Hd). unfold lower_letter, digit in *. lia.
  - split.
    + intros N. destruct (decide (cb_type b = [])) as [|Hne]; [by exists Given|by exists KnownType].
    + intros [[] H]; cbn in H; try done; [by rewrite H|tauto].
  - split; [lia|]. by intros [[] H].
  - unfold factor_in_range. split.
    + intros N. destruct (Rtotal_order (B2R (cb_dislike b)) 0) as [H|[H|H]];
        [by exists NotBelow|by exists Given|]. exists NotAbove. split; [done|].
      apply Rnot_le_lt. intros H'. apply N. split; [split; [done|lra]|lra].
    + intros [[] H]; cbn in H; try done; destruct H; lra.
Qed.

Lemma binding_messages b e : 0 <= cb_max b -> is_finite (cb_dislike b) = true -> e ∈ create_errors b ->
  exists f r, lower_first (fe_field e) = json_key f /\ breaks b f r /\ fe_message e = text_of r.
Proof.
  intros Hmax F. unfold create_errors. rewrite (check_max _ Hmax), !elem_of_app. cbn [app].
  pose proof (alphanum_lower (cb_name b)) as A.
  intros [H|[H|[H|H]]]; [| |by apply elem_of_nil in H|];
    unfold check_field, first_failure in H.
  - exists FName. revert H. unfold name_tags.
    destruct (tag_required_string (cb_name b)) eqn:R, (tag_lowercase (cb_name b)) eqn:L,
      (tag_alphanum (cb_name b)) eqn:N; cbn; intros H; try (by apply elem_of_nil in H);
      apply elem_of_list_singleton in H as ->; cbn [fe_field fe_message].
    1-3: exists Characters; repeat split; [by destruct (cb_name b)|]; intros Hf; cbn [andb] in A;
      assert (X : cb_name b <> []) by (by destruct (cb_name b)); by assert (false = true) by (apply A; done).
    all: exists Given; repeat split; cbn; by destruct (cb_name b).
  - exists FType. revert H. unfold type_tags, tag_oneof_like.
    destruct (decide (cb_type b = ascii_bytes "like")) as [->|N]; [by intros H%elem_of_nil|].
    rewrite (bool_decide_eq_false_2 _ N).
    destruct (cb_type b) as [|c r] eqn:T; cbn; intros ->%elem_of_list_singleton; cbn.
    + by exists Given.
    + exists KnownType. cbn. by rewrite T.
  - exists FFactor. revert H. unfold factor_tags. pose proof (factor_bounds _ F) as [B1 B2].
    destruct (tag_required_float (cb_dislike b)) eqn:R;
      [destruct (f32_leb (f32_of_int 0) (cb_dislike b)) eqn:L; [destruct (f32_leb (cb_dislike b) (f32_of_int 1)) eqn:N|]|].
    + cbn. by intros H%elem_of_nil.
    + cbn. intros ->%elem_of_list_singleton. exists NotAbove. cbn. eauto.
    + destruct (f32_leb (cb_dislike b) (f32_of_int 1)); cbn; intros ->%elem_of_list_singleton; exists NotBelow; cbn; eauto.
    + intros H. exists Given. assert (H' : e = FieldError (ascii_bytes "DislikeFactor") (ascii_bytes "This field is required")).
      { revert H. destruct (f32_leb (f32_of_int 0) (cb_dislike b)), (f32_leb (cb_dislike b) (f32_of_int 1)); cbn;
        by intros ->%elem_of_list_singleton. }
      rewrite H'. cbn. repeat split; [done|by apply factor_zero].
Qed.

(** * C111 *)

(** What is said of a field is the text of the rule that its value breaks. *)
Theorem C111_messages_partial : forall b e, 0 <= cb_max b -> is_finite (cb_dislike b) = true ->
  told b e ->
  exists f r, lower_first (fe_field e) = json_key f /\ breaks b f r /\ fe_message e = text_of r.
Proof.
  intros b e Hmax F (q & s & s' & l & R & Hm & Hp & Hb & Hs & He). apply running_inv in R as (ls & E & _).
  assert (D : dispatch (routes q) q = handle_create (rq_w1 q) (rq_create q)).
  { unfold routes, dispatch. rewrite Hm, Hp. reflexivity. }
  revert Hs. unfold serve, recovery. rewrite D. clear D. rewrite Hb. unfold handle_create.
  destruct (create_errors b) as [|e1 es] eqn:B.
  - unfold or_else, iolift. destruct (create_to_domain b) as [d|e'| |] eqn:D.
    + unfold refuse. destruct (create_namespace (rq_w1 q) d s) as [? []]; discriminate.
    + intros [= <- <-]. pose proof (domain_tells b e' Hmax B D) as T.
      pose proof (tells_true _ _ _ T FName ltac:(by left)) as U.
      apply create_errors_nil in B. unfold create_binding in B. rewrite !andb_true_iff in B.
      destruct B as [[[[[B1 B2] B3] [B4 B5]] B6] B7].
      assert (A : cb_name b <> [] /\ Forall (fun c => lower_letter c \/ digit c) (cb_name b)).
      { apply alphanum_lower. by rewrite B1, B2, B3. }
      unfold tag_oneof_like in B5. apply bool_decide_eq_true in B5.
      unfold create_domain_errors, type_domain_error, parse_namespace_type in He.
      rewrite bool_decide_true in He by done. rewrite app_nil_r in He. unfold name_domain_error in He.
      exists FName, FirstLetter. destruct (parse_namespace_name (cb_name b));
        first [by apply elem_of_nil in He | apply elem_of_list_singleton in He as ->]; cbn [fe_field fe_message];
        repeat split; try tauto; apply first_rest; tauto.
    + done.
    + done.
  - intros [= <- <-]. rewrite <- B in He. by apply binding_messages.
Qed.
Print Assumptions C111_messages_partial.

(** Every value that does not fit breaks exactly one rule. *)
Theorem C111_one_rule : forall b f, 0 <= cb_max b -> is_finite (cb_dislike b) = true ->
  (unfit b f <-> exists r, breaks b f r) /\
  forall r1 r2, breaks b f r1 -> breaks b f r2 -> r1 = r2.
Proof. intros b f Hmax F. split; [by apply rule_exists|apply rule_unique]. Qed.
Print Assumptions C111_one_rule.

(** So the client is told the rule only of a field that is missing and of a name that is
    right but for its first character.  In all other cases it reads "Unknown error". *)
Theorem C111_message_tells_the_rule_refuted : forall b e f r, 0 <= cb_max b ->
  is_finite (cb_dislike b) = true -> told b e -> lower_first (fe_field e) = json_key f ->
  breaks b f r -> r <> Given -> r <> FirstLetter -> fe_message e = ascii_bytes "Unknown error".
Proof.
  intros b e f r Hmax F T Hf Hr N1 N2.
  destruct (C111_messages_partial b e Hmax F T) as (f' & r' & Hf' & Hr' & ->).
  assert (f' = f) as -> by (rewrite Hf in Hf'; by destruct f, f').
  rewrite (rule_unique _ _ _ _ Hr' Hr). by destruct r.
Qed.
Print Assumptions C111_message_tells_the_rule_refuted.

(** Two requests are told the same of the same field, though one factor is too small and the
    other too large. *)
Definition factor_body (x : f32) : create_body := CreateBody (ascii_bytes "a") (ascii_bytes "like") 0 x.
Example C111_case :
  let e := FieldError (ascii_bytes "DislikeFactor") (ascii_bytes "Unknown error") in
  told (factor_body (f32_of_int (-1))) e /\ breaks (factor_body (f32_of_int (-1))) FFactor NotBelow /\
  told (factor_body (f32_of_int 2)) e /\ breaks (factor_body (f32_of_int 2)) FFactor NotAbove /\
  told (CreateBody (ascii_bytes "aB") (ascii_bytes "like") 0 one) (FieldError (ascii_bytes "Name") (ascii_bytes "Unknown error")) /\
  told (CreateBody (ascii_bytes "1b") (ascii_bytes "like") 0 one)
    (FieldError (ascii_bytes "name") (ascii_bytes "invalid namespace name")).
Proof.
  cbn zeta. repeat split.
  all: try match goal with |- told ?b _ =>
    exists (post b), ex_fresh, ex_fresh; eexists; split; [apply ex_fresh_running|];
    split; [reflexivity|]; split; [reflexivity|]; split; [reflexivity|];
    split; [vm_compute; reflexivity|by left] end.
  all: try reflexivity.
  all: apply factor_bounds; [reflexivity|vm_compute; reflexivity].
Qed.
