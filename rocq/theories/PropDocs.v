(** The answers announced by the API documentation (docs/swagger.yaml): C86. *)
From Flocq Require Import IEEE754.BinarySingleNaN.
From Verif Require Import Base GoIO Similarity Naming Service Api ServiceSession SpecNames
  NamesFacts ServiceFacts ApiFacts PropService.
#[local] Open Scope Z_scope.

(** ** Specification *)

Inductive schema := Namespace | Namespaces | Message | AnObject.
(** The JSON that a payload is sent as (C84) is of this schema. *)
Definition of_schema (sc : schema) (p : payload) : Prop :=
  match sc, p with
  | Namespace, PNamespace _ | Namespaces, PList _ => True
  | Message, PError (CError _ | CNote _ | CDecode) => True
  | AnObject, (PNamespace _ | PError (CError _ | CNote _ | CDecode | CFields _)) => True
  | _, _ => False
  end.

(** docs/swagger.yaml, paths. *)
Inductive documented : method -> list (list byte) -> Z -> schema -> Prop :=
| doc_list : documented MGet collection_path 200 Namespaces
| doc_create : documented MPost collection_path 200 Namespace
| doc_create_bad : documented MPost collection_path 400 AnObject
| doc_get name : name <> [] -> documented MGet (collection_path ++ [name]) 200 Namespace
| doc_get_bad name : name <> [] -> documented MGet (collection_path ++ [name]) 400 Message
| doc_get_missing name : name <> [] -> documented MGet (collection_path ++ [name]) 404 Message
| doc_update name : name <> [] -> documented MPut (collection_path ++ [name]) 200 Namespaces.

Definition has_docs (q : request) : Prop := exists st sc, documented (rq_method q) (rq_path q) st sc.
Definition answers (q : request) (s : svc) (st : Z) (p : payload) : Prop :=
  exists s', serve q s = (s', Ret (Response st p)).
Definition as_documented (q : request) (s : svc) : Prop :=
  exists st sc p, documented (rq_method q) (rq_path q) st sc /\ answers q s st p /\ of_schema sc p.

(** ** Proofs *)

Lemma answers_fun q s st p st' p' : answers q s st p -> answers q s st' p' -> st = st' /\ p = p'.
Proof. intros [s1 H1] [s2 H2]. rewrite H1 in H2. by injection H2. Qed.

Lemma create_answer w body s l : sv_list s = wrap_ns l ->
  exists s' st p, handle_create w body s = (s', Ret (Response st p)) /\
    ((st = 400 /\ of_schema AnObject p) \/ (st = 201 /\ of_schema Namespace p)).
Proof.
  intros E. unfold handle_create. destruct body as [b|]; [|eexists _, _, _; split; [done|]; by left].
  destruct (create_errors b) as [|f fs] eqn:Hb; [|eexists _, _, _; split; [done|]; by left].
  unfold or_else at 1, iolift. destruct (create_to_domain b) as [d|e| |] eqn:Hd.
  2: { eexists _, _, _. split; [done|]. by left. }
  2, 3: unfold create_to_domain in Hd; repeat (case_match; try done).
  destruct (to_domain_eq _ _ Hd) as [Ed _]. unfold or_else.
  destruct (decide (cr_name d ∈ map ln_name l)) as [Hin|Hin].
  - rewrite (create_taken w d s l E Hin). eexists _, _, _. split; [done|]. by left.
  - rewrite (create_good w d s l E Hin) by (by rewrite Ed).
    destruct w; eexists _, _, _; (split; [reflexivity|]); cbn; tauto.
Qed.

(** * C86 *)

(** A documented creation is answered 201, which is not documented, and a PUT 400. *)
Theorem C86_documented_refuted :
  ~ (forall q s, running s -> rq_method q = MPost -> has_docs q -> as_documented q s) /\
  ~ (forall q s, running s -> rq_method q = MPut -> has_docs q -> as_documented q s).
Proof.
  split; intros H.
  - destruct (H (post (CreateBody (ascii_bytes "a") (ascii_bytes "like") 7 one)) ex_fresh ex_fresh_running eq_refl)
      as (st & sc & p & D & A & _); [by exists 200, Namespace; constructor|].
    assert (A' : exists p', answers (post (CreateBody (ascii_bytes "a") (ascii_bytes "like") 7 one)) ex_fresh 201 p').
    { eexists. eexists. reflexivity. }
    destruct A' as [p' A']. destruct (answers_fun _ _ _ _ _ _ A A') as [-> _].
    inversion D.
  - set (q := Request MPut (collection_path ++ [ascii_bytes "a"]) None None WOk WOk).
    destruct (H q ex_fresh ex_fresh_running eq_refl) as (st & sc & p & D & A & _);
      [by exists 200, Namespaces; constructor|].
    assert (A' : answers q ex_fresh 400 (PError (CError (EMsg "invalid namespace name")))).
    { eexists. apply (C49_always_400 q (ascii_bytes "a")); [by right|done|done]. }
    destruct (answers_fun _ _ _ _ _ _ A A') as [-> _]. inversion D.
Qed.
Print Assumptions C86_documented_refuted.

(** Every GET is answered as documented; a POST exactly if it is refused, and it is
    answered 201 otherwise; a PUT never. *)
Theorem C86_documented_partial : forall q s, running s -> has_docs q ->
  (rq_method q = MGet -> as_documented q s) /\
  (rq_method q = MPost -> exists st p, answers q s st p /\
     ((st = 400 /\ as_documented q s) \/ (st = 201 /\ of_schema Namespace p /\ ~ as_documented q s))) /\
  (rq_method q = MPut -> ~ as_documented q s /\ exists p, answers q s 400 p /\ of_schema Message p).
Proof.
  intros q s R (st0 & sc0 & D0). apply running_inv in R as (l & E & _). split; [|split]; intros Hm; rewrite Hm in D0.
  - assert (P : rq_path q = collection_path \/ exists name, name <> [] /\ rq_path q = collection_path ++ [name]).
    { inversion D0; subst; eauto. }
    destruct P as [P|(name & Hn & P)].
    + eexists 200, Namespaces, _. rewrite Hm, P. split; [constructor|].
      assert (D : dispatch (routes q) q = handle_list) by (unfold routes, dispatch; rewrite Hm, P; reflexivity).
      split; [|shelve]. eexists. unfold serve, recovery. rewrite D, (handle_list_ok s l E). reflexivity.
      Unshelve. exact I.
    + eexists 400, Message, _. rewrite Hm, P. split; [by constructor|].
      split; [eexists; apply (C49_always_400 q name s); [by left|done|done]|done].
  - assert (P : rq_path q = collection_path) by (by inversion D0).
    assert (D : dispatch (routes q) q = handle_create (rq_w1 q) (rq_create q))
      by (unfold routes, dispatch; rewrite Hm, P; reflexivity).
    destruct (create_answer (rq_w1 q) (rq_create q) s l E) as (s' & st & p & H & C).
    assert (A : answers q s st p) by (eexists; unfold serve, recovery; rewrite D, H; reflexivity).
    exists st, p. split; [done|]. destruct C as [[-> C]|[-> C]]; [left|right]; split; try done.
    + exists 400, AnObject, p. rewrite Hm, P. split; [constructor|done].
    + split; [done|]. intros (st & sc & p' & D' & A' & _). destruct (answers_fun _ _ _ _ _ _ A A') as [<- _].
      rewrite Hm in D'. inversion D'.
  - assert (P : exists name, name <> [] /\ rq_path q = collection_path ++ [name]) by (inversion D0; eauto).
    destruct P as (name & Hn & P).
    assert (A : answers q s 400 (PError (CError (EMsg "invalid namespace name")))).
    { eexists. apply (C49_always_400 q name); [by right|done|done]. }
    split; [|by eexists].
    intros (st & sc & p' & D' & A' & _). destruct (answers_fun _ _ _ _ _ _ A A') as [<- _].
    rewrite Hm in D'. inversion D'.
Qed.
Print Assumptions C86_documented_partial.

Example C86_case :
  has_docs (post (CreateBody (ascii_bytes "a") (ascii_bytes "like") 7 one)) /\
  as_documented (Request MGet collection_path None None WOk WOk) ex_fresh /\
  as_documented (post (CreateBody (ascii_bytes "A") (ascii_bytes "like") 7 one)) ex_fresh.
Proof.
  split; [by exists 200, Namespace; constructor|]. split.
  - exists 200, Namespaces, (PList []). split; [constructor|]. split; [by eexists|done].
  - eexists 400, AnObject, _. split; [constructor|]. split; [eexists; vm_compute; reflexivity|done].
Qed.
