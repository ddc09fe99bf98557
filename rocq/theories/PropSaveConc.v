(** Saving the namespaces from several requests at the same time: C136. *)
From Verif Require Import Base GoIO Similarity Naming Json Service Api ServiceSession SpecNames
  SpecJson JsonFacts ServiceFacts PropService PropJson SaveConc SaveConcFacts.

(** The calls that have to save the given lists. *)
Definition savers (ls : list (list (option lns))) : list saver := map (fun l => SvReady (marshal l)) ls.
Definition succeeded (w : saver) : Prop := match w with SvDone _ => True | _ => False end.

(** What a new process that finds [c] in the file does with it: nothing but an error. *)
Definition rejected (c : list byte) : Prop := forall env,
  (exists e, snd (load_namespaces (new_service env (Some c))) = Err e) /\
  sv_list (fst (load_namespaces (new_service env (Some c)))) = [].

Lemma rejected_intro c : json_parse c = None -> rejected c.
Proof. intros H env. unfold load_namespaces. cbn [sv_json new_service]. rewrite H. split; [by eexists|done]. Qed.

Lemma savers_texts ls : map text_of (savers ls) = map marshal ls.
Proof. unfold savers. rewrite map_map. done. Qed.

(** * What goes wrong *)

(** Of any two saves of which one has less to write than the other: both may return nil and
    leave the text of the shorter one followed by the end of the longer one, which the
    next process rejects. *)
Theorem C136_two_saves : forall l1 l2 c0,
  (length (marshal l1) < length (marshal l2))%nat ->
  let c := marshal l1 ++ drop (length (marshal l1)) (marshal l2) in
  saves false (c0, savers [l1; l2]) (c, [SvDone (marshal l1); SvDone (marshal l2)]) /\
  c <> marshal l1 /\ c <> marshal l2 /\ rejected c.
Proof.
  intros l1 l2 c0 Hl c.
  assert (N : forall l, (0 < length (marshal l))%nat) by (intros l; pose proof (marshal_length l); lia).
  assert (P : json_parse c = None).
  { apply marshal_followed. rewrite last_drop by done. apply marshal_end. }
  split; [|split; [|split; [|by apply rejected_intro]]].
  - eapply (saves_one _ _ _ 0); [reflexivity|apply sv_open|].
    eapply (saves_one _ _ _ 1); [reflexivity|apply sv_open|].
    eapply (saves_one _ _ _ 1); [reflexivity|apply (sv_write _ _ _ _ (length (marshal l2))); [apply N|lia|done]|].
    eapply (saves_one _ _ _ 0); [reflexivity|apply (sv_write _ _ _ _ (length (marshal l1))); [apply N|lia|done]|].
    eapply (saves_one _ _ _ 0); [reflexivity|by apply sv_close|].
    eapply (saves_one _ _ _ 1); [reflexivity|by apply sv_close|].
    rewrite !drop_0, !take_ge by done. rewrite !splice_whole, drop_nil, app_nil_r. apply saves_none.
  - intros E. rewrite E, json_parse_marshal in P. done.
  - intros E. rewrite E, json_parse_marshal in P. done.
Qed.
Print Assumptions C136_two_saves.

(** The claim: when every save has succeeded, the file holds the list of one of them. *)
Theorem C136_one_of_the_saves_refuted :
  ~ (forall ls c0 c ws, ls <> [] -> saves false (c0, savers ls) (c, ws) -> Forall succeeded ws ->
     exists l, l ∈ ls /\ c = marshal l).
Proof.
  intros H. set (a := @nil (option lns)). set (b := [@None lns]).
  destruct (C136_two_saves a b []) as (R & N1 & N2 & _); [vm_compute; lia|].
  destruct (H [a; b] [] _ _ ltac:(done) R) as (l & Hl & E).
  { by repeat constructor. }
  apply elem_of_cons in Hl as [->|Hl]; [by destruct N1|].
  apply elem_of_list_singleton in Hl as ->. by destruct N2.
Qed.
Print Assumptions C136_one_of_the_saves_refuted.

(** * What holds *)

(** Any number of saves, in any order of their steps, whichever of them fail, stopped at
    any moment: the file holds what it held before, or the list of one of the saves, or
    something that the next process rejects.  Two lists are never taken for a third. *)
Theorem C136_never_mixed_partial : forall ls c0 c ws,
  saves false (c0, savers ls) (c, ws) ->
  c = c0 \/ (exists l, l ∈ ls /\ c = marshal l) \/ rejected c.
Proof.
  intros ls c0 c ws R.
  assert (I : whole_inv (map marshal ls) c0 (c, ws)).
  { eapply whole_inv_saves; [exact R|]. split; [apply savers_texts|]. right; left. split; [done|].
    unfold savers. apply Forall_forall. intros w Hw. apply elem_of_list_In, in_map_iff in Hw as (l & <- & _). done. }
  destruct I as [_ [->|[[-> _]|(d & t & e & Hd & He & -> & _ & El)]]].
  - right; right. by apply rejected_intro.
  - by left.
  - apply elem_of_list_In, in_map_iff in Hd as (l & <- & Hl).
    apply elem_of_list_In, in_map_iff in He as (l' & <- & _). right.
    destruct t as [|b t]; [left; exists l; split; [by apply elem_of_list_In|by rewrite app_nil_r]|].
    right. apply rejected_intro, marshal_followed.
    rewrite last_app, !marshal_end in El. destruct (last (b :: t)) eqn:X; [done|]. by apply last_None in X.
Qed.
Print Assumptions C136_never_mixed_partial.

(** When every save has succeeded the file begins with the whole list of one of them and
    is as long as one of them; if they all have equally much to write it is exactly
    the list of one of them. *)
Theorem C136_whole_partial : forall ls c0 c ws,
  ls <> [] -> saves false (c0, savers ls) (c, ws) -> Forall succeeded ws ->
  exists l t, l ∈ ls /\ c = marshal l ++ t /\
    (exists l', l' ∈ ls /\ length c = length (marshal l')) /\
    ((forall l', l' ∈ ls -> (length (marshal l') <= length (marshal l))%nat) -> c = marshal l).
Proof.
  intros ls c0 c ws Hls R F.
  assert (I : whole_inv (map marshal ls) c0 (c, ws)).
  { eapply whole_inv_saves; [exact R|]. split; [apply savers_texts|]. right; left. split; [done|].
    unfold savers. apply Forall_forall. intros w Hw. apply elem_of_list_In, in_map_iff in Hw as (l & <- & _). done. }
  assert (J : full_inv (map marshal ls) (c, ws)).
  { eapply full_inv_saves; [exact R| |].
    - apply Forall_forall. intros d Hd ->. apply elem_of_list_In, in_map_iff in Hd as (l & E & _).
      pose proof (marshal_length l) as Hm. rewrite E in Hm. cbn in Hm. lia.
    - split; [apply savers_texts|]. right; left. unfold savers. apply Forall_forall. intros w Hw.
      apply elem_of_list_In, in_map_iff in Hw as (l & <- & _). done. }
  destruct J as [T J]. destruct I as [_ I].
  assert (exists d t, d ∈ map marshal ls /\ c = d ++ t) as (d & t & Hd & Ec).
  { destruct J as [J|[J|[J|J]]]; [exfalso|exfalso|exfalso|done].
    - apply Exists_exists in J as (w & Hw & J). rewrite Forall_forall in F. specialize (F _ Hw). by destruct w.
    - destruct ws as [|w ws]; [by destruct ls|]. apply Forall_cons in F as [F _]. apply Forall_cons in J as [J _].
      by destruct w.
    - apply Exists_exists in J as (w & Hw & J). rewrite Forall_forall in F. specialize (F _ Hw). by destruct w. }
  apply elem_of_list_In, in_map_iff in Hd as (l & <- & Hl). apply elem_of_list_In in Hl.
  exists l, t. split; [done|]. split; [done|].
  assert (exists l', l' ∈ ls /\ length c = length (marshal l')) as (l' & Hl' & El).
  { destruct I as [I|[[_ I]|(d' & t' & e & _ & He & _ & El & _)]].
    - rewrite I in Ec. pose proof (marshal_length l). apply (f_equal length) in Ec. rewrite app_length in Ec. cbn in Ec. lia.
    - destruct ws as [|w ws]; [by destruct ls|]. apply Forall_cons in F as [F _]. apply Forall_cons in I as [I _].
      by destruct w.
    - apply elem_of_list_In, in_map_iff in He as (l' & <- & He). exists l'. split; [by apply elem_of_list_In|done]. }
  split; [by exists l'|]. intros Hm. specialize (Hm _ Hl'). rewrite Ec, app_length in El.
  destruct t as [|b t]; [by rewrite app_nil_r in Ec|]. cbn in El. lia.
Qed.
Print Assumptions C136_whole_partial.

(** A save that runs while no other is under way, in whatever pieces it writes, leaves
    exactly its list. *)
Theorem C136_alone_partial : forall pieces i l c0 ws c ws',
  ws !! i = Some (SvReady (marshal l)) ->
  (forall j w, j <> i -> ws !! j = Some w -> (exists d, w = SvDone d) \/ (exists d, w = SvFailed d)) ->
  saves pieces (c0, ws) (c, ws') -> ws' !! i = Some (SvDone (marshal l)) ->
  c = marshal l.
Proof.
  intros pieces i l c0 ws c ws' Hi Ho R Hd.
  assert (I : alone_inv i (marshal l) (c, ws')).
  { eapply alone_inv_saves; [exact R|]. split.
    - intros j w Hj Hn. destruct (Ho _ _ Hn Hj) as [[d ->]|[d ->]]; done.
    - eexists. split; [exact Hi|]. by left. }
  destruct I as [_ (w & Hw & I)]. rewrite Hd in Hw. injection Hw as <-.
  destruct I as [I|[I|[[_ I]|(p & I & _)]]]; done.
Qed.
Print Assumptions C136_alone_partial.

(** In whatever pieces the saves write: every byte of the file is one that was there, or one
    that a save has at that place, or the zero of a hole. *)
Theorem C136_bytes_partial : forall pieces ls c0 c ws k b,
  saves pieces (c0, savers ls) (c, ws) -> c !! k = Some b ->
  b = 0 \/ c0 !! k = Some b \/ exists l, l ∈ ls /\ marshal l !! k = Some b.
Proof.
  intros pieces ls c0 c ws k b R Hb.
  assert (I : byte_inv (map marshal ls) c0 (c, ws)).
  { eapply byte_inv_saves; [exact R|]. split; [apply savers_texts|]. intros k' b' H. by right; left. }
  destruct I as [_ I]. destruct (I k b Hb) as [H|[H|(d & Hd & H)]]; [by left|by right; left|].
  apply elem_of_list_In, in_map_iff in Hd as (l & <- & Hl). right; right. exists l. split; [by apply elem_of_list_In|done].
Qed.
Print Assumptions C136_bytes_partial.

(** Two requests create "a" and "b"; the first saves one namespace, the second both.  They
    open the file together and the first writes last. *)
Example C136_case :
  let s1 := after (SCreate WOk (ex_create "a")) ex_fresh in
  let s2 := after (SCreate WOk (ex_create "b")) s1 in
  running s2 /\ marshal (sv_list s1) = ascii_bytes "[{}]" /\ marshal (sv_list s2) = ascii_bytes "[{},{}]" /\
  saves false ([], savers [sv_list s1; sv_list s2])
    (ascii_bytes "[{}]{}]", [SvDone (ascii_bytes "[{}]"); SvDone (ascii_bytes "[{},{}]")]) /\
  rejected (ascii_bytes "[{}]{}]").
Proof.
  intros s1 s2. split; [apply running_after, running_after, ex_fresh_running|].
  split; [reflexivity|]. split; [reflexivity|].
  destruct (C136_two_saves (sv_list s1) (sv_list s2) []) as (R & _ & _ & J); [vm_compute; lia|].
  split; [exact R|exact J].
Qed.
