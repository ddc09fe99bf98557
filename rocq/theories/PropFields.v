(** What a refused client is told about the fields it sent: C83. *)
From Coq Require Import Reals Lra.
From Flocq Require Import Core.Core IEEE754.BinarySingleNaN.
From Verif Require Import Base GoIO Similarity SimilarityFacts Naming Json Service Api ServiceSession
  SpecNames NamesFacts ServiceFacts ApiFacts PropService PropHandlers.
#[local] Open Scope Z_scope.

(** ** Specification *)

(** The fields of a request and their names in the JSON a client sends. *)
Inductive field := FName | FType | FMax | FFactor.
#[global] Instance field_eq_dec : EqDecision field.
Proof. solve_decision. Defined.
Definition json_key (f : field) : list byte :=
  match f with
  | FName => ascii_bytes "name"
  | FType => ascii_bytes "type"
  | FMax => ascii_bytes "maxSimilarProfiles"
  | FFactor => ascii_bytes "dislikeFactor"
  end.

(** A value that the service does not take, whatever the other fields are. *)
Definition unfit (b : create_body) (f : field) : Prop :=
  match f with
  | FName => ~ api_name_ok (cb_name b)
  | FType => cb_type b <> ascii_bytes "like"
  | FMax => cb_max b < 0
  | FFactor => ~ (factor_in_range (cb_dislike b) /\ B2R (cb_dislike b) <> 0%R)
  end.
(** A field left out of the JSON, or sent with the value it would have then. *)
Definition left_out (b : create_body) (f : field) : Prop :=
  match f with
  | FName => cb_name b = []
  | FType => cb_type b = []
  | FMax => cb_max b = 0
  | FFactor => is_finite (cb_dislike b) = true /\ B2R (cb_dislike b) = 0%R
  end.

(** The same word, but for the case of its first letter. *)
Definition lower_first (s : list byte) : list byte :=
  match s with
  | c :: r => (if (65 <=? c) && (c <=? 90) then c + 32 else c) :: r
  | [] => []
  end.

(** A body without a type, as PUT takes it, is as good as one of the right type. *)
Definition with_type (b : update_body) : create_body :=
  CreateBody (ub_name b) (ascii_bytes "like") (ub_max b) (ub_dislike b).

(** What [l] tells about the body [b]: fields [fs], in the order of the documentation. *)
Record tells (b : create_body) (l : list field_error) (fs : list field) : Prop := {
  tells_names : map (fun e => lower_first (fe_field e)) l = map json_key fs;
  tells_order : sublist fs [FName; FType; FMax; FFactor];
  tells_some : fs <> [];
  tells_true : forall f, f ∈ fs -> unfit b f;
  tells_all : forall f, unfit b f -> f ∈ fs \/
    (f = FName /\ cb_name b <> [] /\ Forall (fun c => lower_letter c \/ digit c) (cb_name b) /\
     exists g, g <> FName /\ unfit b g);
  tells_required : forall e f, (e, f) ∈ zip l fs ->
    fe_message e = ascii_bytes "This field is required" <-> left_out b f
}.

(** ** Proofs *)

Lemma leb_false_val x y : is_finite x = true -> is_finite y = true ->
  f32_leb x y = false -> ~ (B2R x <= B2R y)%R.
Proof. intros Fx Fy H L. apply (f32_leb_finite x y Fx Fy) in L. congruence. Qed.

Lemma factor_tags_nil x :
  forallb snd (factor_tags x) = true <-> factor_in_range x /\ B2R x <> 0%R.
Proof.
  cbn [forallb snd factor_tags]. rewrite andb_true_r, !andb_true_iff.
  pose proof (min0_max1 x) as M. unfold tag_min0_max1 in M. rewrite andb_true_iff in M. split.
  - intros [H1 H2]. apply M in H2. split; [done|]. apply required_float_val; [apply H2|done].
  - intros [H1 H2]. split; [|by apply M]. apply required_float_val; [apply H1|done].
Qed.

(** The error of one field, if any. *)
Definition one_error (field : string) (good req : Prop) (l : list field_error) : Prop :=
  (good /\ l = []) \/
  (~ good /\ exists m, l = [FieldError (ascii_bytes field) m] /\
     (m = ascii_bytes "This field is required" <-> req)).

Lemma check_name s :
  one_error "Name" (s <> [] /\ Forall (fun c => lower_letter c \/ digit c) s) (s = [])
    (check_field "Name" (name_tags s)).
Proof.
  pose proof (alphanum_lower s) as A. unfold one_error.
  destruct (tag_required_string s) eqn:R, (tag_lowercase s) eqn:L, (tag_alphanum s) eqn:N;
    cbn [andb] in A; unfold check_field, first_failure, name_tags; rewrite R, L, N; cbn;
    first [left; split; [by apply A|done] | right; split; [by rewrite <- A|]];
    eexists; (split; [reflexivity|]); destruct s; try done.
Qed.

Lemma check_type s :
  one_error "Type" (s = ascii_bytes "like") (s = []) (check_field "Type" (type_tags s)).
Proof.
  unfold one_error, check_field, first_failure, type_tags, tag_oneof_like.
  destruct (decide (s = ascii_bytes "like")) as [->|H]; [by left|].
  right. split; [done|]. rewrite bool_decide_false by done.
  destruct s; cbn; eexists; split; try reflexivity; done.
Qed.

Lemma check_max n : 0 <= n -> check_field "MaxSimilarProfiles" (max_tags n) = [].
Proof.
  intros H. apply check_field_nil. cbn. unfold tag_omitempty_min1.
  destruct (Z.eqb_spec n 0); [done|]. rewrite (proj2 (Z.leb_le 1 n)) by lia. done.
Qed.

Lemma check_factor x :
  one_error "DislikeFactor" (factor_in_range x /\ B2R x <> 0%R)
    (is_finite x = true /\ B2R x = 0%R) (check_field "DislikeFactor" (factor_tags x)).
Proof.
  pose proof (factor_tags_nil x) as A. unfold one_error.
  assert (Z : tag_required_float x = false <-> is_finite x = true /\ B2R x = 0%R).
  { destruct (is_finite x) eqn:F.
    - pose proof (required_float_val x F). destruct (tag_required_float x); split; try done; try tauto.
      intros _. split; [done|]. destruct (Req_dec (B2R x) 0) as [|N]; [done|]. by apply H in N.
    - split; [|by intros []]. by destruct x. }
  cbn [forallb snd factor_tags] in A. rewrite andb_true_r in A.
  destruct (tag_required_float x) eqn:R, (f32_leb (f32_of_int 0) x) eqn:L, (f32_leb x (f32_of_int 1)) eqn:N;
    cbn [andb] in A; unfold check_field, first_failure, factor_tags; rewrite R, L, N; cbn;
    first [left; split; [by apply A|done] | right; split; [by rewrite <- A|]];
    eexists; (split; [reflexivity|]); rewrite <- Z; split; done.
Qed.

(** The errors of the binding tags. *)
Lemma binding_tells b : 0 <= cb_max b -> create_errors b <> [] -> exists fs, tells b (create_errors b) fs.
Proof.
  intros Hmax. unfold create_errors. rewrite (check_max _ Hmax). cbn [app].
  pose proof (api_name_split (cb_name b)) as NN.
  destruct (check_name (cb_name b)) as [[B1 ->]|[B1 (m1 & -> & R1)]],
    (check_type (cb_type b)) as [[B2 ->]|[B2 (m2 & -> & R2)]],
    (check_factor (cb_dislike b)) as [[B3 ->]|[B3 (m3 & -> & R3)]]; cbn [app]; intros Hne; try done.
  all: match goal with |- exists fs, tells _ ?l _ =>
    let fs := eval vm_compute in
      (map (fun e => if bool_decide (fe_field e = ascii_bytes "Name") then FName else
                     if bool_decide (fe_field e = ascii_bytes "Type") then FType else FFactor) l) in
    exists fs end.
  all: split; try done.
  all: try (intros f Hf; repeat (apply elem_of_cons in Hf as [->|Hf]; [cbn; tauto|]); by apply elem_of_nil in Hf).
  all: try (intros e f Hf; repeat (apply elem_of_cons in Hf as [[= -> ->]|Hf]; [cbn; tauto|]); by apply elem_of_nil in Hf).
  all: try (repeat first [apply sublist_nil_l | apply sublist_skip | apply sublist_cons]; done).
  all: intros [] Hf; cbn in Hf; try lia; try tauto; rewrite ?elem_of_cons; try tauto.
  all: right; split; [done|]; split; [tauto|]; split; [tauto|].
  all: first [by exists FType | by exists FFactor].
Qed.

(** The errors of ToDomain. *)
Lemma domain_tells b e : 0 <= cb_max b -> create_errors b = [] -> create_to_domain b = Err e ->
  tells b (create_domain_errors b) [FName].
Proof.
  intros Hmax B D. apply create_errors_nil in B. pose proof (binding_and_domain b Hmax) as BD.
  unfold create_binding in B. rewrite !andb_true_iff, min0_max1 in B.
  destruct B as [[[[[B1 B2] B3] [B4 B5]] B6] [B7 B8]].
  unfold tag_oneof_like in B5. apply bool_decide_eq_true in B5.
  unfold create_domain_errors, create_to_domain, name_domain_error, type_domain_error in *.
  unfold parse_namespace_type in *. rewrite bool_decide_true in * by done.
  destruct (parse_namespace_name (cb_name b)) eqn:P; try done.
  2, 3: unfold parse_namespace_name in P; by destruct (match_string _ _).
  assert (U : unfit b FName).
  { intros H. apply api_name_split in H as [H _]. by rewrite (parse_name_ok _ H) in P. }
  split; cbn; try done.
  - apply sublist_skip, sublist_nil_l.
  - intros f Hf. by apply elem_of_list_singleton in Hf as ->.
  - intros [] Hf; cbn in Hf; try lia; try tauto; rewrite ?elem_of_list_singleton; try tauto.
    destruct Hf. split; [done|]. apply required_float_val; [apply B8|done].
  - intros e' f Hf. apply elem_of_list_singleton in Hf as [= -> ->]. cbn. split; [done|].
    intros H. by rewrite H in B1.
Qed.

(** * C83 *)

(** A body is refused for its fields: then they are listed. *)
Theorem C83_fields_partial : forall q b s s' l, running s ->
  rq_method q = MPost -> rq_path q = collection_path -> rq_create q = Some b -> 0 <= cb_max b ->
  serve q s = (s', Ret (Response 400 (PError (CFields l)))) ->
  exists fs, tells b l fs.
Proof.
  intros q b s s' l R Hm Hp Hb Hmax. apply running_inv in R as (ls & E & _).
  assert (D : dispatch (routes q) q = handle_create (rq_w1 q) (rq_create q)).
  { unfold routes, dispatch. rewrite Hm, Hp. reflexivity. }
  unfold serve, recovery. rewrite D. clear D. rewrite Hb. unfold handle_create. destruct (create_errors b) as [|e es] eqn:B.
  - unfold or_else, iolift. destruct (create_to_domain b) as [d|e| |] eqn:D.
    + unfold refuse. destruct (create_namespace (rq_w1 q) d s) as [? []]; discriminate.
    + intros [= <- <-]. exists [FName]. by eapply domain_tells.
    + done.
    + done.
  - intros [= <- <-]. rewrite <- B. apply binding_tells; [done|]. by rewrite B.
Qed.
Print Assumptions C83_fields_partial.

(** The same of an update, of a handler that is given the name of a namespace. *)
Lemma update_as_create b : update_errors b = create_errors (with_type b).
Proof. reflexivity. Qed.

Lemma update_domain_as_create b :
  name_domain_error (ub_name b) = create_domain_errors (with_type b) /\
  (forall e, update_to_domain b = Err e -> create_to_domain (with_type b) = Err e).
Proof.
  split.
  - unfold create_domain_errors. change (type_domain_error (cb_type (with_type b))) with (@nil field_error).
    by rewrite app_nil_r.
  - intros e. unfold update_to_domain, create_to_domain. cbn [with_type cb_name cb_type].
    change (parse_namespace_type (ascii_bytes "like")) with (@Ret (list byte) (ascii_bytes "like")).
    destruct (parse_namespace_name (ub_name b)); congruence.
Qed.

Theorem C83_update_fields_partial : forall w1 w2 name b s s' l, running s -> 0 <= ub_max b ->
  handle_update w1 w2 [(ascii_bytes "namespace", name)] (Some b) s =
    (s', Ret (Response 400 (PError (CFields l)))) ->
  exists fs, tells (with_type b) l fs.
Proof.
  intros w1 w2 name b s s' l R Hmax. pose proof R as (ls & E & N & _)%running_inv.
  destruct (C49_put_handler_partial name w1 w2 (Some b) s R) as (H1 & H2 & _ & H4).
  { intros b' [= <-]. done. }
  unfold bound in H1, H2, H4.
  destruct (match_string name_regex name) eqn:M.
  2: { rewrite H1; [discriminate|]. intros M'. apply name_regex_ok in M'. congruence. }
  apply name_regex_ok in M. destruct (decide (name ∈ names s)) as [Hin|Hin].
  2: { rewrite H2 by done. discriminate. }
  destruct (update_errors b) as [|e0 es0] eqn:B0; [destruct (update_to_domain b) as [d|e| |] eqn:D|].
  1: { assert (U : update_ok b).
       { apply update_binding_ok; [done|]. split; [by apply update_errors_nil|by eexists]. }
       destruct (H4 b M Hin eq_refl U) as [H5 H6].
       destruct (decide (ub_name b = name)) as [Hq|Hq].
       { intros HU. rewrite HU in H6. by discriminate (H6 (or_introl Hq)). }
       destruct (decide (ub_name b ∈ names s)) as [Hi|Hi].
       { rewrite (H5 Hq Hi). discriminate. }
       intros HU. rewrite HU in H6. by discriminate (H6 (or_intror Hi)). }
  all: rewrite (names_wrap s ls E) in Hin;
    destruct (split_by_name _ _ Hin) as (l1 & x & l2 & -> & Hx & Hn);
    unfold handle_update; change (param _ _) with name; unfold or_else at 1, iolift at 1;
    rewrite (parse_name_ok _ M), (bind_ret _ _ _ _ _ (find_present l1 x l2 s name E Hx Hn));
    cbv beta iota; rewrite B0.
  1, 2, 3: unfold or_else at 1, iolift at 1; rewrite D.
  - destruct (update_domain_as_create b) as [-> Hc]. intros [= <- <-]. exists [FName].
    by eapply domain_tells; [| |apply Hc].
  - intros [= ].
  - intros [= ].
  - intros [= <- <-]. rewrite update_as_create in B0. rewrite <- B0.
    apply binding_tells; [done|]. by rewrite B0.
Qed.
Print Assumptions C83_update_fields_partial.

(** The name under which a field is reported is not the one the client sent it by, and a
    name that starts with a digit is not reported next to another fault. *)
Definition two_faults : create_body :=
  CreateBody (ascii_bytes "1a") (ascii_bytes "dislike") 0 one.

Theorem C83_fields_refuted :
  ~ (forall q b s s' l, running s -> rq_method q = MPost -> rq_path q = collection_path ->
     rq_create q = Some b -> 0 <= cb_max b ->
     serve q s = (s', Ret (Response 400 (PError (CFields l)))) ->
     forall e, e ∈ l -> exists f, unfit b f /\ fe_field e = json_key f) /\
  ~ (forall q b s s' l, running s -> rq_method q = MPost -> rq_path q = collection_path ->
     rq_create q = Some b -> 0 <= cb_max b ->
     serve q s = (s', Ret (Response 400 (PError (CFields l)))) ->
     forall f, unfit b f -> exists e, e ∈ l /\ lower_first (fe_field e) = json_key f).
Proof.
  set (l := [FieldError (ascii_bytes "Type") (ascii_bytes "Unknown error")]).
  assert (S : serve (post two_faults) ex_fresh = (ex_fresh, Ret (Response 400 (PError (CFields l)))))
    by reflexivity.
  split; intros H.
  - destruct (H (post two_faults) two_faults ex_fresh ex_fresh l ex_fresh_running eq_refl eq_refl eq_refl
                ltac:(done) S (FieldError (ascii_bytes "Type") (ascii_bytes "Unknown error"))
                ltac:(by left)) as ([] & _ & ?); done.
  - destruct (H (post two_faults) two_faults ex_fresh ex_fresh l ex_fresh_running eq_refl eq_refl eq_refl
                ltac:(done) S FName) as (e & He & Hf).
    + intros (c & r & Hc & Hl & _). injection Hc as <- <-. vm_compute in Hl; by destruct Hl as [[] _].
    + apply elem_of_list_singleton in He as ->. done.
Qed.
Print Assumptions C83_fields_refuted.

(** All three refusable fields at once, and a name refused by ToDomain. *)
Example C83_case :
  serve (post (CreateBody [] (ascii_bytes "x") 3 (f32_of_int 2))) ex_fresh =
    (ex_fresh, Ret (Response 400 (PError (CFields
      [FieldError (ascii_bytes "Name") (ascii_bytes "This field is required");
       FieldError (ascii_bytes "Type") (ascii_bytes "Unknown error");
       FieldError (ascii_bytes "DislikeFactor") (ascii_bytes "Unknown error")])))) /\
  serve (post (CreateBody (ascii_bytes "1a") (ascii_bytes "like") 3 one)) ex_fresh =
    (ex_fresh, Ret (Response 400 (PError (CFields
      [FieldError (ascii_bytes "name") (ascii_bytes "invalid namespace name")])))).
Proof. split; vm_compute; reflexivity. Qed.

(** The update handler, of a namespace that exists. *)
Example C83_update_case :
  handle_update WOk WOk [(ascii_bytes "namespace", ascii_bytes "a")]
    (Some (UpdateBody (ascii_bytes "B") 0 one))
    (fst (create_namespace WOk (ex_create "a") ex_fresh)) =
  (fst (create_namespace WOk (ex_create "a") ex_fresh),
   Ret (Response 400 (PError (CFields
     [FieldError (ascii_bytes "Name") (ascii_bytes "Unknown error")])))).
Proof. vm_compute. reflexivity. Qed.
