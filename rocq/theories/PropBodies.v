(** The texts of responses: C84. *)
From Coq Require Import Reals Lra.
From Flocq Require Import Core.Core IEEE754.BinarySingleNaN.
From Verif Require Import Base GoIO Similarity SimilarityFacts Naming Json SpecJson JsonFacts JsonCodec
  SpecJsonText JsonCodecFacts BodyFacts JsonStructFacts Service Api ApiText ServiceSession SpecNames NamesFacts
  ServiceFacts ApiFacts PropService.
#[local] Open Scope Z_scope.

(** ** Specification *)

(** A JSON string that denotes this text; where the text is not UTF-8, the replacement
    character stands for each byte that is not part of a character. *)
Definition denotes (v : json) (s : list byte) : Prop :=
  exists raw cs, v = JStr raw /\ shown s cs /\ means raw cs.
(** A JSON number that is this natural number. *)
Definition counts (v : json) (n : Z) : Prop :=
  exists t, v = JNum t /\ int_part t /\ decimal_value t = n.

Definition describes_namespace (v : json) (r : ns_response) : Prop :=
  exists n t m, v = JObj [(ascii_bytes "name", n); (ascii_bytes "type", t); (ascii_bytes "maxSimilarProfiles", m)] /\
    denotes n (nr_name r) /\ denotes t (nr_type r) /\ counts m (nr_max r).
Definition describes_field (v : json) (e : field_error) : Prop :=
  exists f m, v = JObj [(ascii_bytes "field", f); (ascii_bytes "message", m)] /\
    denotes f (fe_field e) /\ denotes m (fe_message e).
Definition describes_message (v : json) (s : list byte) : Prop :=
  exists m, v = JObj [(ascii_bytes "message", m)] /\ denotes m s.

(** The JSON value that a response should have as its body. *)
Definition describes (explain : err -> list byte) (undecoded : list byte) (p : payload) (v : json) : Prop :=
  match p with
  | PNamespace r => describes_namespace v r
  | PList l => exists vs, v = JArr vs /\ Forall2 describes_namespace vs l
  | PError (CError e) => describes_message v (explain e)
  | PError (CNote m) => describes_message v (ascii_bytes m)
  | PError CDecode => describes_message v undecoded
  | PError (CFields l) =>
    exists kind vs, v = JObj [(ascii_bytes "error", kind); (ascii_bytes "errors", JArr vs)] /\
      denotes kind (ascii_bytes "validation") /\ Forall2 describes_field vs l
  | PError CPanic | PError CNoRoute => False
  end.

(** What a byte and a uint can be. *)
Definition bytes (s : list byte) : Prop := Forall (fun b => 0 <= b < 256) s.
Definition typed_namespace (r : ns_response) : Prop := bytes (nr_name r) /\ bytes (nr_type r) /\ 0 <= nr_max r < 2 ^ 64.
Definition typed (p : payload) : Prop :=
  match p with
  | PNamespace r => typed_namespace r
  | PList l => Forall typed_namespace l
  | PError (CFields l) => Forall (fun e => bytes (fe_field e) /\ bytes (fe_message e)) l
  | PError CPanic | PError CNoRoute => False
  | PError _ => True
  end.

(** ** Proofs *)

Lemma ascii_bytes_typed s : bytes (ascii_bytes s).
Proof.
  induction s as [|c s IH]; cbn; [constructor|]. constructor; [|done].
  pose proof (Ascii.nat_ascii_bounded c). lia.
Qed.

(** A value that can be written, with no invalid character in it. *)
Definition sound (v : json) : Prop := writable v /\ unicode v.

Lemma string_denotes s : bytes s -> sound (json_string_of s) /\ denotes (json_string_of s) s.
Proof.
  intros H.
  destruct (quote_shown (length s) s) as (cs & Hs & Hm); [|done|].
  { eapply Forall_impl; [exact H|]. cbv beta. lia. }
  split; [|by eexists _, _]. split; [constructor; by eapply means_chars|by econstructor].
Qed.
Lemma uint_counts n : 0 <= n -> sound (json_uint_of n) /\ counts (json_uint_of n) n.
Proof.
  intros H. split; [split; [constructor; by apply format_uint_number|constructor]|]. eexists. split; [reflexivity|].
  by apply format_uint_spec.
Qed.

Lemma plain_means s : forallb (fun c => (32 <=? c) && (c <? 128) && negb (c =? 34) && negb (c =? 92)) s = true ->
  means s s.
Proof.
  induction s as [|c s IH]; [constructor|]. cbn [forallb]. rewrite andb_true_iff. intros [H1 H2].
  change (means ([c] ++ s) (c :: s)). rewrite <- (utf8_1 c) by lia.
  apply means_plain; [unfold scalar; lia|lia..|by apply IH].
Qed.

Lemma sound_arr l : Forall sound l -> sound (JArr l).
Proof. intros H. split; constructor; (eapply Forall_impl; [exact H|]); by intros v []. Qed.
Lemma sound_obj ms :
  Forall (fun m => forallb (fun c => (32 <=? c) && (c <? 128) && negb (c =? 34) && negb (c =? 92)) (fst m) = true /\ sound (snd m)) ms ->
  sound (JObj ms).
Proof.
  intros H. split; constructor; (eapply Forall_impl; [exact H|]); intros [k v] [Hk [Hw Hu]]; cbn [fst snd] in *.
  - split; [|done]. by eapply means_chars, plain_means.
  - split; [|done]. eexists. by apply plain_means.
Qed.
Ltac obj_members := repeat (apply Forall_cons_2; [split; cbn [fst snd]; [vm_compute; reflexivity|try done]|]); try apply Forall_nil_2.

Lemma namespace_described r : typed_namespace r ->
  sound (namespace_json r) /\ describes_namespace (namespace_json r) r.
Proof.
  intros (H1 & H2 & H3). destruct (string_denotes _ H1), (string_denotes _ H2), (uint_counts (nr_max r) ltac:(lia)).
  split; [|eexists _, _, _; split; [reflexivity|done]].
  apply sound_obj. obj_members.
Qed.
Lemma field_described e : bytes (fe_field e) -> bytes (fe_message e) ->
  sound (field_error_json e) /\ describes_field (field_error_json e) e.
Proof.
  intros H1 H2. destruct (string_denotes _ H1), (string_denotes _ H2).
  split; [|eexists _, _; split; [reflexivity|done]].
  apply sound_obj. obj_members.
Qed.
Lemma message_described s : bytes s -> sound (message_json s) /\ describes_message (message_json s) s.
Proof.
  intros H. destruct (string_denotes _ H). split; [|eexists; split; [reflexivity|done]].
  apply sound_obj. obj_members.
Qed.

Lemma text_of v t : value t v -> json_text t v.
Proof. intros H. exists [], t, []. split; [constructor|]. split; [done|]. split; [constructor|]. by rewrite app_nil_r. Qed.

(** * C84 *)
Theorem C84_bodies : forall explain undecoded p,
  (forall e, bytes (explain e)) -> bytes undecoded -> typed p ->
  utf8_encoded (body_text explain undecoded p) /\
  exists v, json_text (body_text explain undecoded p) v /\ describes explain undecoded p v.
Proof.
  intros explain undecoded p He Hu Hp.
  assert (Hm : forall v, sound v -> value (JsonCodec.marshal v) v /\ value (JsonCodec.marshal_indent 0 v) v /\ unicode v).
  { intros v [W U]. split; [by apply marshal_value|]. split; [by apply marshal_indent_value|done]. }
  assert (Hx : exists v, json_text (body_text explain undecoded p) v /\ unicode v /\ describes explain undecoded p v).
  { destruct p as [[e|m| |l| |]|r|l]; cbn [body_text describes typed] in *; try done.
    - destruct (message_described _ (He e)) as [W D]. apply Hm in W as (W1 & W2 & U). eexists. split; [by apply text_of|done].
    - destruct (message_described _ (ascii_bytes_typed m)) as [W D]. apply Hm in W as (W1 & W2 & U).
      eexists. split; [by apply text_of|done].
    - destruct (message_described _ Hu) as [W D]. apply Hm in W as (W1 & W2 & U). eexists. split; [by apply text_of|done].
    - assert (W : Forall sound (map field_error_json l) /\ Forall2 describes_field (map field_error_json l) l).
      { induction Hp as [|e l [H1 H2] _ [IH1 IH2]]; [split; constructor|].
        destruct (field_described e H1 H2). split; by constructor. }
      destruct W as [W D]. destruct (string_denotes _ (ascii_bytes_typed "validation")) as [W' D'].
      assert (Hs : sound (fields_json l)).
      { apply sound_obj. obj_members. by apply sound_arr. }
      apply Hm in Hs as (W1 & W2 & U). exists (fields_json l). split; [by apply text_of|]. split; [done|by eexists _, _].
    - destruct (namespace_described r Hp) as [W D]. apply Hm in W as (W1 & W2 & U). eexists. split; [by apply text_of|done].
    - assert (W : Forall sound (map namespace_json l) /\ Forall2 describes_namespace (map namespace_json l) l).
      { induction Hp as [|e l H _ [IH1 IH2]]; [split; constructor|].
        destruct (namespace_described e H). split; by constructor. }
      destruct W as [W D]. apply sound_arr, Hm in W as (W1 & W2 & U). eexists. split; [by apply text_of|].
      split; [done|by eexists]. }
  destruct Hx as (v & Ht & U & D). split; [by eapply text_encoded|]. by exists v.
Qed.
Print Assumptions C84_bodies.

(** Texts as gin sends them. *)
Example C84_case :
  body_text (fun _ => []) [] (PList [NsResponse (ascii_bytes "a") (ascii_bytes "like") 1000]) =
    ascii_bytes "[
    {
        ""name"": ""a"",
        ""type"": ""like"",
        ""maxSimilarProfiles"": 1000
    }
]" /\
  body_text (fun _ => []) [] (PList []) = ascii_bytes "[]" /\
  body_text (fun _ => ascii_bytes "no <b> ""x""") [] (PError (CError EEOF)) =
    ascii_bytes "{""message"":""no \u003cb\u003e \""x\""""}" /\
  body_text (fun _ => []) [] (PError (CFields [FieldError (ascii_bytes "Name") (ascii_bytes "é")])) =
    ascii_bytes "{""error"":""validation"",""errors"":[{""field"":""Name"",""message"":""é""}]}".
Proof. split; [|split; [|split]]; vm_compute; reflexivity. Qed.

(** Bytes that are no UTF-8: a surrogate and a lone continuation byte. *)
Example C84_invalid_case :
  body_text (fun _ => [97; 237; 160; 128; 98]) [] (PError (CError EEOF)) =
    ascii_bytes "{""message"":""a\ufffd\ufffd\ufffdb""}" /\
  shown [97; 237; 160; 128; 98] [97; 65533; 65533; 65533; 98].
Proof.
  split; [vm_compute; reflexivity|].
  apply (shown_char 97 [237; 160; 128; 98]); [unfold scalar; lia|].
  assert (B : forall b s c r, 128 <= b -> decode_rune (b :: s) = (rune_error, 1%nat) -> scalar c -> b :: s <> utf8 c ++ r).
  { intros b s c r Hb D Hc Eq. rewrite Eq, (decode_utf8 c r Hc) in D. injection D as -> Hl. discriminate Hl. }
  repeat (apply shown_bad; [intros c r Hc; by apply (B _ _ c r); [lia|reflexivity|]|]).
  apply (shown_char 98 []); [unfold scalar; lia|constructor].
Qed.
