(** The namespaces file: C77 (what LoadNamespaces accepts), C78 (a file cut off
    while being written), C79 (a failed save). *)
From Verif Require Import Base GoIO Similarity Naming Json Service Api ServiceSession SpecNames
  SpecJson JsonFacts NamesFacts ServiceFacts PropService.

(** * C77 *)

(** The parser accepts exactly the JSON texts with at most 10000 levels, and reads them as
    the grammar does. *)
Theorem C77_parser_is_grammar : forall s v,
  json_parse s = Some v <-> json_text s v /\ nested 10000 v.
Proof. exact json_parse_grammar. Qed.
Print Assumptions C77_parser_is_grammar.

(** An entry that a JSON value may be decoded into without an error. *)
Definition fits (old : option lns) (j : json) : Prop :=
  j = JNull \/ exists x l, old = Some x /\ j = JObj l.

Lemma decode_elems_spec js : forall old,
  length (fst (decode_elems old js)) = length js /\
  (forall k j, js !! k = Some j ->
     fst (decode_elems old js) !! k =
     Some (match j with JNull => None | _ => default None (old !! k) end)) /\
  (snd (decode_elems old js) = true <->
   forall k j, js !! k = Some j -> fits (default None (old !! k)) j).
Proof.
  induction js as [|j js IH]; intros old.
  { split; [done|]. split; [by intros k j H|]. split; [by intros _ k j H|done]. }
  destruct (IH (tail old)) as (I1 & I2 & I3). cbn [decode_elems].
  destruct (decode_elem (default None (head old)) j) as [x ok] eqn:D.
  destruct (decode_elems (tail old) js) as [l ok'] eqn:R. cbn [fst snd] in *.
  assert (H0 : old !! 0%nat = head old) by (by destruct old).
  assert (HS : forall k, old !! S k = tail old !! k) by (by destruct old).
  split; [cbn; by rewrite I1|]. split.
  - intros [|k] j' Hj; cbn in Hj |- *.
    + injection Hj as <-. rewrite H0. f_equal.
      destruct j, (default None (head old)); cbn in D; by injection D as <- _.
    + rewrite HS. by apply I2.
  - rewrite andb_true_iff, I3. split.
    + intros [Hok Hrest] [|k] j' Hj; cbn in Hj.
      * injection Hj as <-. rewrite H0. unfold fits.
        destruct j, (default None (head old)) as [y|]; cbn in D; injection D as _ <-; try done;
          try (by left). right. by eexists _, _.
      * rewrite HS. by apply Hrest.
    + intros H. split.
      * specialize (H 0%nat j eq_refl). rewrite H0 in H. destruct H as [->|(y & l' & Ey & ->)].
        -- cbn in D. by injection D as _ <-.
        -- rewrite Ey in D. cbn in D. by injection D as _ <-.
      * intros k j' Hj. rewrite <- HS. by apply (H (S k)).
Qed.

(** What loading does with every possible content of the file: a text that is not
    JSON, has more than 10000 levels or is neither null nor an array is an error and changes
    nothing; null
    empties the list; an array makes the list as long as it is, with nil for every
    null and the former entry for everything else, and is accepted exactly if every
    element is null or an object standing where a namespace was. *)
Theorem C77_load_exact : forall s data, sv_json s = Some data ->
  let r := load_namespaces s in
  sv_json (fst r) = Some data /\ sv_base (fst r) = sv_base s /\
  ((forall v, json_text data v -> ~ nested 10000 v) -> (exists e, snd r = Err e) /\ sv_list (fst r) = sv_list s) /\
  (json_text data JNull -> snd r = Ret tt /\ sv_list (fst r) = []) /\
  (forall v, json_text data v -> v <> JNull -> (forall js, v <> JArr js) ->
     (exists e, snd r = Err e) /\ sv_list (fst r) = sv_list s) /\
  (forall js, json_text data (JArr js) -> nested 10000 (JArr js) ->
     length (sv_list (fst r)) = length js /\
     (forall k j, js !! k = Some j ->
        sv_list (fst r) !! k = Some (match j with JNull => None | _ => default None (sv_list s !! k) end)) /\
     ((forall k j, js !! k = Some j -> fits (default None (sv_list s !! k)) j) -> snd r = Ret tt) /\
     (~ (forall k j, js !! k = Some j -> fits (default None (sv_list s !! k)) j) ->
        exists e, snd r = Err e)).
Proof.
  intros s data E r. unfold r, load_namespaces. rewrite E.
  destruct (json_parse data) as [v|] eqn:P.
  2: { split; [done|]. split; [done|]. split; [intros _; split; [by eexists|done]|].
       split.
       { intros H. assert (X : json_parse data = Some JNull); [|congruence].
         apply C77_parser_is_grammar. split; [done|constructor]. }
       split; [intros v _ _ _; split; [by eexists|done]|].
       intros js H N. assert (X : json_parse data = Some (JArr js)) by (by apply C77_parser_is_grammar). congruence. }
  pose proof (proj1 (C77_parser_is_grammar _ _) P) as [Hv Hn].
  assert (U : forall w, json_text data w -> w = v) by (intros w H; by apply (json_text_det data)).
  assert (Hno : (forall w, json_text data w -> ~ nested 10000 w) -> False) by (intros H; by apply (H v)).
  destruct v as [| | | |js|ms].
  all: try (split; [done|]; split; [done|]; split; [by intros []%Hno|];
    split; [intros H; by apply U in H|];
    split; [intros w _ _ _; split; [by eexists|done]|intros js H; by apply U in H]).
  - split; [done|]. split; [done|]. split; [by intros []%Hno|]. split; [done|]. split.
    + intros w H N. apply U in H. done.
    + intros js H. by apply U in H.
  - destruct (decode_elems_spec js (sv_list s)) as (D1 & D2 & D3).
    destruct (decode_elems (sv_list s) js) as [l ok] eqn:D. cbn [fst snd] in *.
    split; [done|]. split; [done|]. split; [by intros []%Hno|].
    split; [intros H; by apply U in H|]. split.
    + intros w H _ N. apply U in H. by destruct (N js).
    + intros js' H _. apply U in H as [= ->]. split; [done|]. split; [done|]. split.
      * intros H. apply D3 in H as ->. done.
      * intros H. destruct ok; [|by eexists]. by destruct H; apply D3.
Qed.
Print Assumptions C77_load_exact.

(** A file that does not exist is an error, and nothing is changed. *)
Theorem C77_load_missing : forall s, sv_json s = None ->
  exists e, load_namespaces s = (s, Err e).
Proof. intros s E. unfold load_namespaces. rewrite E. by eexists. Qed.
Print Assumptions C77_load_missing.

Example C77_missing_case : sv_json (new_service (ascii_bytes "/data") None) = None.
Proof. done. Qed.

(** Texts of every kind. *)
Lemma parses s v : json_parse s = Some v -> json_text s v.
Proof. apply C77_parser_is_grammar. Qed.
Example C77_cases :
  json_text (ascii_bytes " [null, {""a"": -1.5e+3}, [true,""é""] ] ")
    (JArr [JNull; JObj [(ascii_bytes "a", JNum (ascii_bytes "-1.5e+3"))]; JArr [JBool true; JStr (ascii_bytes "é")]]) /\
  (forall v, ~ json_text (ascii_bytes "[null] x") v) /\
  (forall v, ~ json_text (ascii_bytes "[01]") v) /\
  (forall v, ~ json_text (ascii_bytes "[1,]") v).
Proof.
  split; [apply parses; vm_compute; reflexivity|].
  split; [|split]; intros v (r & H & Hr)%json_text_value; vm_compute in H.
  - injection H as <- <-. discriminate Hr.
  - discriminate H.
  - discriminate H.
Qed.

(** [n] arrays, one inside of the other. *)
Fixpoint brackets (n : nat) : list byte :=
  match n with O => [49] | S n => 91 :: brackets n ++ [93] end.
Fixpoint boxes (n : nat) : json :=
  match n with O => JNum [49] | S n => JArr [boxes n] end.
Lemma brackets_value n : value (brackets n) (boxes n).
Proof.
  induction n as [|n IH]; cbn [brackets boxes].
  - apply value_number. exists [], [49], [], []. split; [by left|].
    split; [right; exists 49, []; repeat split; (lia || constructor)|]. split; [by left|]. split; [by left|done].
  - apply value_array. replace (brackets n) with ([] ++ brackets n ++ []) by (by rewrite app_nil_r).
    apply elements_one; [constructor|done|constructor].
Qed.
Lemma boxes_nested n : forall k, nested k (boxes n) <-> Z.of_nat n <= k \/ n = O.
Proof.
  induction n as [|n IH]; intros k; cbn [boxes].
  - split; [by right|constructor].
  - split.
    + intros H. inversion H as [| | | |? ? H1 F|]; subst. apply Forall_cons in F as [F _]. apply IH in F. lia.
    + intros [H|H]; [|lia]. constructor; [lia|]. constructor; [apply IH; lia|constructor].
Qed.

(** 10001 levels are too many, though the text is JSON; 10000 are not. *)
Theorem C77_too_deep : forall s n, sv_json s = Some (brackets n) ->
  json_text (brackets n) (boxes n) /\
  (Z.of_nat n <= 10000 -> json_parse (brackets n) = Some (boxes n)) /\
  (10000 < Z.of_nat n -> exists e, load_namespaces s = (s, Err e)).
Proof.
  intros s n E.
  assert (T : json_text (brackets n) (boxes n)).
  { exists [], (brackets n), []. split; [constructor|]. split; [apply brackets_value|]. split; [constructor|].
    by rewrite app_nil_r. }
  split; [done|]. split.
  - intros H. apply C77_parser_is_grammar. split; [done|]. apply boxes_nested. by left.
  - intros H. unfold load_namespaces. rewrite E. destruct (json_parse (brackets n)) as [v|] eqn:P; [|by eexists].
    apply C77_parser_is_grammar in P as [Hv Hn]. rewrite <- (json_text_det _ _ _ T Hv) in Hn.
    apply boxes_nested in Hn. lia.
Qed.
Print Assumptions C77_too_deep.

(** * C78 *)

(** A text that begins with a bracket has a closing bracket. *)
Lemma array_text_closed s r v : s = 91 :: r -> json_text s v -> 93 ∈ s.
Proof.
  intros Es (w1 & t & w2 & H1 & Ht & H2 & E). rewrite Es in E.
  destruct w1 as [|c w1].
  2: { injection E as <- _. apply Forall_cons in H1 as [H1 _]. unfold ws_char in H1. lia. }
  rewrite Es, E. cbn [app]. apply elem_of_app. left.
  destruct (value_head t v Ht) as (c & t' & Et & _). rewrite Et in E. injection E as <- _.
  destruct Ht as [| | |n Hn|n Hn|w Hw|b l Hb|w Hw|b l Hb]; try discriminate Et; try set_solver.
  destruct (number_head _ Hn) as (c & n' & -> & Hc). injection Et as -> _. unfold dec in Hc. lia.
Qed.

(** The file SaveNamespaces writes has one closing bracket, its last byte. *)
Lemma marshal_elem_open x : 93 ∉ marshal_elem x.
Proof. destruct x; cbn; set_solver. Qed.
Lemma marshal_rest_last l : exists b, marshal_rest l = b ++ [93] /\ 93 ∉ b.
Proof.
  induction l as [|x l (b & E & Hb)]; [exists []; split; [done|set_solver]|].
  exists (ascii_bytes "," ++ marshal_elem x ++ b). cbn [marshal_rest]. rewrite E.
  split; [by rewrite <- !app_assoc|]. rewrite !not_elem_of_app. split; [cbn; set_solver|].
  split; [apply marshal_elem_open|done].
Qed.
Lemma marshal_last l : exists b, marshal l = 91 :: b ++ [93] /\ 93 ∉ b.
Proof.
  destruct l as [|x l]; [exists []; split; [done|set_solver]|].
  destruct (marshal_rest_last l) as (b & E & Hb). exists (marshal_elem x ++ b).
  unfold marshal. rewrite E. split; [cbn; by rewrite <- app_assoc|].
  rewrite not_elem_of_app. split; [apply marshal_elem_open|done].
Qed.

(** A file cut off anywhere before its end is not JSON. *)
Lemma torn_not_json l n : (n < length (marshal l))%nat -> forall v, ~ json_text (take n (marshal l)) v.
Proof.
  intros Hn v H. destruct (marshal_last l) as (b & E & Hb). rewrite E in H, Hn.
  cbn [length] in Hn. rewrite app_length in Hn. cbn in Hn.
  destruct n as [|n].
  - destruct H as (w1 & t & w2 & _ & Ht & _ & Et). cbn in Et.
    destruct (value_head t v Ht) as (c & t' & -> & _). by destruct w1.
  - cbn [take] in H. rewrite take_app_le in H by lia.
    pose proof (array_text_closed _ _ v eq_refl H) as Hin.
    apply elem_of_cons in Hin as [?|Hin]; [lia|]. apply elem_of_take in Hin as (i & Hi & _).
    destruct Hb. by eapply elem_of_list_lookup_2.
Qed.

(** Whatever list was being saved: if the write stops before its end, the next
    process notices (loading is an error), takes nothing from the file, and
    starts. *)
Theorem C78_torn_file_detected : forall s n env start,
  (n < length (marshal (sv_list s)))%nat ->
  let disk := sv_json (fst (save_namespaces (WPart n) s)) in
  (exists e, snd (load_namespaces (new_service env disk)) = Err e) /\
  sv_list (fst (load_namespaces (new_service env disk))) = [] /\
  snd (boot start env disk) = Ret tt.
Proof.
  intros s n env start Hn disk.
  assert (Ed : disk = Some (take n (marshal (sv_list s)))) by done.
  destruct (C77_load_exact (new_service env disk) _ Ed) as (_ & _ & H & _).
  destruct H as [He Hl]; [intros v Hv; by destruct (torn_not_json _ _ Hn v)|].
  split; [done|]. split; [done|]. unfold boot. cbn [snd]. by rewrite Hl.
Qed.
Print Assumptions C78_torn_file_detected.

Example C78_case : let s := after (SCreate WOk (ex_create "a")) ex_fresh in
  running s /\ marshal (sv_list s) = ascii_bytes "[{}]" /\
  sv_json (fst (save_namespaces (WPart 2) s)) = Some (ascii_bytes "[{").
Proof. intros s. split; [apply running_after, ex_fresh_running|]. split; reflexivity. Qed.

(** * C79 *)

(** The file is replaced as a whole: a save that fails leaves the old content. *)
Theorem C79_failed_save_refuted :
  ~ (forall s w s' e, running s -> save_namespaces w s = (s', Err e) -> sv_json s' = sv_json s).
Proof.
  intros H. set (s := after (SCreate WOk (ex_create "a")) ex_fresh).
  specialize (H s (WPart 0) (fst (save_namespaces (WPart 0) s)) (EMsg "failed to write namespaces.json")).
  assert (E : sv_json (fst (save_namespaces (WPart 0) s)) = sv_json s).
  { apply H; [apply running_after, ex_fresh_running|done]. }
  vm_compute in E. discriminate E.
Qed.
Print Assumptions C79_failed_save_refuted.

(** What holds: the list in memory is never touched by a save, a save that succeeds
    wrote the whole file, and one that fails left either the old content or the
    beginning of the new one. *)
Theorem C79_save_partial : forall s w,
  sv_list (fst (save_namespaces w s)) = sv_list s /\
  (snd (save_namespaces w s) = Ret tt ->
   exists js, (exists data, sv_json (fst (save_namespaces w s)) = Some data /\ json_text data (JArr js)) /\
     length js = length (sv_list s)) /\
  (forall e, snd (save_namespaces w s) = Err e ->
   sv_json (fst (save_namespaces w s)) = sv_json s \/
   exists data, sv_json (fst (save_namespaces w s)) = Some data /\
     data `prefix_of` marshal (sv_list s)).
Proof.
  intros s w. split; [apply save_list|]. split.
  - intros H. exists (map elem_json (sv_list s)). split; [|apply map_length].
    exists (marshal (sv_list s)). split; [by destruct w|]. apply parses, json_parse_marshal.
  - intros e H. destruct w; [done|by left|]. right. eexists. split; [done|]. exists (drop n (marshal (sv_list s))); by rewrite take_drop.
Qed.
Print Assumptions C79_save_partial.

Example C79_case : exists s', save_namespaces WOk (after (SCreate WOk (ex_create "a")) ex_fresh) = (s', Ret tt) /\
  sv_json s' = Some (ascii_bytes "[{}]").
Proof. eexists. split; [reflexivity|reflexivity]. Qed.
