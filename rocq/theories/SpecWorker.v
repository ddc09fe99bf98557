(** Vocabulary for the worker properties: what a trace of events shows. *)
From Verif Require Import Base Arrays Profile Worker.

(** Callers whose action entered the queue, in that order. *)
Definition sent (tr : list event) : list nat :=
  omap (fun e => match e with EvSent i => Some i | _ => None end) tr.

(** Callers whose action the worker took, in that order. *)
Definition taken (tr : list event) : list nat :=
  omap (fun e => match e with EvTaken i => Some i | _ => None end) tr.

(** Replies received: by whom, in that order. *)
Definition replies (tr : list event) : list (nat * reply) :=
  omap (fun e => match e with EvReply i r => Some (i, r) | _ => None end) tr.
Definition replied (tr : list event) : list nat := map fst (replies tr).

(** The storages closed, in that order. *)
Definition storages_closed (tr : list event) : list storage :=
  omap (fun e => match e with EvClosed st => Some st | _ => None end) tr.

(** The batches handed to ProcessActions. *)
Definition batches (tr : list event) : list (list action) :=
  omap (fun e => match e with EvBatch l => Some l | _ => None end) tr.

(** The call an action stands for: its code (actions.go) with its payload. *)
Definition meant (a : action) : option call :=
  match a_type a, a_payload a with
  | 1, DeleteProfilePayload u => Some (DeleteProfile u)
  | 2, GetProfilePayload u => Some (GetProfile u)
  | 3, LikePayload u i => Some (Like u i)
  | 4, LikePayload u i => Some (Dislike u i)
  | 5, LikePayload u i => Some (DeleteItem u i)
  | 6, GetSimilarProfilesPayload u => Some (GetSimilarProfiles u)
  | 7, RecommendItemsPayload u => Some (RecommendItems u)
  | _, _ => None
  end.

(** The reply the storage of the repository gives to a call it was handed. *)
Definition expected_reply (c : call) : reply :=
  match c with
  | GetProfile _ => RProfile None
  | GetSimilarProfiles _ => RProfiles []
  | RecommendItems _ => RItems []
  | DeleteProfile _ | Like _ _ | Dislike _ _ | DeleteItem _ _ => RError None
  end.

(** The error a call gets from a stopping namespace. *)
Definition refusal : reply := RError (Some (EMsg "the namespace stopped")).

Definition waiting (s : wstate) (i : nat) : Prop :=
  exists c, w_callers s !! i = Some (CWaiting c).
Definition answered (s : wstate) (i : nat) : Prop :=
  exists c r, w_callers s !! i = Some (CAnswered c r).
Definition ended (s : wstate) : Prop := w_pc s = WEnded.

(** The worker goroutine is able to take a step. *)
Definition worker_can_step (s : wstate) : Prop := exists ev s', wstep s (true, ev) s'.

(** The actions handed to the storage, in that order. *)
Definition handed (tr : list event) : list action := concat (batches tr).

(** Does this call change what is known about the user's item? *)
Definition writes (u i : Z) (c : call) : bool :=
  match c with
  | DeleteProfile u' => u =? u'
  | Like u' i' | Dislike u' i' | DeleteItem u' i' => (u =? u') && (i =? i')
  | _ => false
  end.
