(** Which files starting a namespace looks at and changes. *)
From Verif Require Import Base GoIO Lock Delta Index Similarity Naming Json Service LikeStart
  SpecNames NamesFacts.

(** The disks hold the same at the paths [ps]. *)
Definition same_at (ps : list (list byte)) (d1 d2 : disk) : Prop := forall p, p ∈ ps -> d1 !! p = d2 !! p.

(** [m] looks at the paths [ps] only, and changes no other. *)
Definition local_to (ps : list (list byte)) {A : Type} (m : io disk A) : Prop :=
  forall d1 d2, same_at ps d1 d2 ->
    snd (m d1) = snd (m d2) /\ same_at ps (fst (m d1)) (fst (m d2)) /\
    forall p, p ∉ ps -> fst (m d1) !! p = d1 !! p.

Lemma same_at_insert (ps : list (list byte)) (p data : list byte) (d1 d2 : disk) : same_at ps d1 d2 -> same_at ps (<[p := data]> d1) (<[p := data]> d2).
Proof.
  intros H q Hq. destruct (decide (q = p)) as [-> | Hne]; [by rewrite !lookup_insert|].
  rewrite !lookup_insert_ne by done. by apply H.
Qed.

Lemma local_ret (ps : list (list byte)) {A : Type} (a : A) : local_to ps (ioret a).
Proof. by intros d1 d2 H. Qed.
Lemma local_lift (ps : list (list byte)) {A : Type} (o : outcome A) : local_to ps (iolift o).
Proof. by intros d1 d2 H. Qed.

Lemma local_insert (ps : list (list byte)) {A : Type} (p data : list byte) (o : outcome A) : p ∈ ps -> local_to ps (fun d => (<[p := data]> d, o)).
Proof.
  intros Hp d1 d2 H. cbn [fst snd]. split; [done|]. split; [by apply same_at_insert|].
  intros q Hq. apply lookup_insert_ne. by intros ->.
Qed.

Lemma local_bind (ps : list (list byte)) {A B : Type} (m : io disk A) (k : A -> io disk B) :
  local_to ps m -> (forall a, local_to ps (k a)) -> local_to ps (iobind m k).
Proof.
  intros Hm Hk d1 d2 H. destruct (Hm d1 d2 H) as (Ho & Hs & Hp). unfold iobind.
  destruct (m d1) as [e1 o1], (m d2) as [e2 o2]. cbn [fst snd] in *. subst o2.
  destruct o1 as [a|e| |]; cbn [fst snd]; try done.
  destruct (Hk a e1 e2 Hs) as (Ho' & Hs' & Hp'). split; [done|]. split; [done|].
  intros p Hnp. by rewrite Hp', Hp.
Qed.

Lemma local_maperr (ps : list (list byte)) {A : Type} (g : err -> err) (m : io disk A) : local_to ps m -> local_to ps (iomaperr g m).
Proof.
  intros Hm d1 d2 H. destruct (Hm d1 d2 H) as (Ho & Hs & Hp). unfold iomaperr.
  destruct (m d1) as [e1 o1], (m d2) as [e2 o2]. cbn [fst snd] in *. subst o2.
  destruct o1 as [a|e| |]; done.
Qed.

Lemma local_os_open (ps : list (list byte)) o path : path ∈ ps -> local_to ps (os_open o path).
Proof.
  intros Hp d1 d2 H. unfold os_open. rewrite (H _ Hp).
  destruct (of_opens o); [|done]. by apply local_insert.
Qed.

Ltac local_cases :=
  repeat match goal with
  | |- local_to _ (fun d => match ?x with _ => _ end) => destruct x
  | |- local_to _ (fun d => if ?x then _ else _) => destruct x
  | |- local_to _ (fun d => let '(_, _) := ?x in _) => destruct x
  end; by apply local_insert.

Lemma local_delta (ps : list (list byte)) v path : path ∈ ps -> local_to ps (open_delta_storage v path).
Proof.
  intros Hp. apply local_bind; [by apply local_maperr, local_os_open|]. intros f. unfold keep. local_cases.
Qed.

Lemma local_index (ps : list (list byte)) v path : path ∈ ps -> local_to ps (open_index_storage v path).
Proof.
  intros Hp. apply local_bind; [by apply local_maperr, local_os_open|]. intros f. unfold keep. local_cases.
Qed.

Lemma local_like (ps : list (list byte)) v factory path : path ∈ ps -> local_to ps (open_like_storage v factory path).
Proof.
  intros Hp. apply local_bind; [by apply local_maperr, local_os_open|]. intros f. unfold keep. local_cases.
Qed.

(** Run [k] on the outcome, whatever it is. *)
Lemma local_then (ps : list (list byte)) {A B : Type} (m : io disk A) (k : outcome A -> io disk B) :
  local_to ps m -> (forall o, local_to ps (k o)) -> local_to ps (fun d => let '(d', o) := m d in k o d').
Proof.
  intros Hm Hk d1 d2 H. destruct (Hm d1 d2 H) as (Ho & Hs & Hp).
  destruct (m d1) as [e1 o1], (m d2) as [e2 o2]. cbn [fst snd] in *. subst o2.
  destruct (Hk o1 e1 e2 Hs) as (Ho' & Hs' & Hp'). split; [done|]. split; [done|].
  intros p Hnp. by rewrite Hp', Hp.
Qed.

Lemma local_ext (ps : list (list byte)) {A : Type} (m m' : io disk A) : (forall d, m d = m' d) -> local_to ps m -> local_to ps m'.
Proof. intros E Hm d1 d2 H. rewrite <- !E. by apply Hm. Qed.

Definition ns_paths (x : lns) : list (list byte) :=
  map (ns_file_path (ln_base x) (ln_name x)) [DeltaFile; IndexFile; RecdbFile].

Lemma ns_path_in x k : ns_file_path (ln_base x) (ln_name x) k ∈ ns_paths x.
Proof. unfold ns_paths. destruct k; cbn; set_solver. Qed.

Lemma ns_start_local v factory x : local_to (ns_paths x) (ns_start_with v factory x).
Proof.
  unfold ns_start_with. cbv zeta. apply local_bind; [apply local_delta, ns_path_in|]. intros ds.
  set (p1 := ns_file_path (ln_base x) (ln_name x) DeltaFile).
  set (p2 := ns_file_path (ln_base x) (ln_name x) IndexFile).
  set (p3 := ns_file_path (ln_base x) (ln_name x) RecdbFile).
  pose (k3 := fun (is : istore) (o : outcome unit) (d : disk) =>
    match o with
    | Ret _ => (d, Ret (ds, is))
    | Err e => (close_index v p2 is (close_delta v p1 ds d), Err e)
    | Panic => (d, Panic)
    | Hang => (d, Hang)
    end).
  assert (Hk3 : forall is o, local_to (ns_paths x) (k3 is o)).
  { intros is [u|e| |]; [apply (local_ret _ (ds, is))| |apply (local_lift _ Panic)|apply (local_lift _ Hang)].
    intros d1 d2 H. cbn [k3 fst snd]. unfold close_index, close_delta, keep.
    split; [done|]. split; [by do 2 apply same_at_insert|].
    intros p Hp. rewrite !lookup_insert_ne; [done| |]; intros <-; by apply Hp, ns_path_in. }
  pose (k2 := fun (o : outcome istore) (d : disk) =>
    match o with
    | Ret is => let '(d', o') := open_like_storage v factory p3 d in k3 is o' d'
    | Err e => (close_delta v p1 ds d, Err e)
    | Panic => (d, Panic)
    | Hang => (d, Hang)
    end).
  assert (Hk2 : forall o, local_to (ns_paths x) (k2 o)).
  { intros [is|e| |]; [|apply local_insert, ns_path_in|apply (local_lift _ Panic)|apply (local_lift _ Hang)].
    apply (local_then _ (open_like_storage v factory p3) (k3 is)); [apply local_like, ns_path_in|apply Hk3]. }
  apply (local_ext _ (fun d => let '(d', o) := open_index_storage v p2 d in k2 o d')).
  - intros d. destruct (open_index_storage v p2 d) as [d' [is|e| |]]; [|done..].
    cbn [k2]. by destruct (open_like_storage v factory p3 d') as [? [?|?| |]].
  - apply local_then; [apply local_index, ns_path_in|apply Hk2].
Qed.

(** Namespaces of one service: the files are apart. *)
Lemma ns_paths_apart x y p : ln_base x = ln_base y -> name_ok (ln_name x) -> name_ok (ln_name y) ->
  ln_name x <> ln_name y -> p ∈ ns_paths x -> p ∉ ns_paths y.
Proof.
  intros Hb Hx Hy Hne H1 H2. unfold ns_paths in *.
  apply elem_of_list_fmap in H1 as (k1 & -> & _). apply elem_of_list_fmap in H2 as (k2 & E & _).
  unfold ns_file_path in E. rewrite Hb in E. apply app_inv_head in E.
  destruct (name_ok_safe _ Hx) as (_ & D1 & _). destruct (name_ok_safe _ Hy) as (_ & D2 & _).
  by apply ext_inj in E as [? _].
Qed.

(** Starting several namespaces one after the other. *)
Definition start_ns (v : lns -> senv) (factory : lns -> option (io file unit)) (x : lns) : io disk unit :=
  fun d => let '(d', o) := ns_start_with (v x) (factory x) x d in
    (d', match o with Ret _ => Ret tt | Err e => Err e | Panic => Panic | Hang => Hang end).

Lemma start_ns_local v factory x : local_to (ns_paths x) (start_ns v factory x).
Proof.
  unfold start_ns. apply (local_then _ _ (fun o d =>
    (d, match o with Ret _ => Ret tt | Err e => Err e | Panic => Panic | Hang => Hang end))); [apply ns_start_local|].
  intros o. by intros d1 d2 H.
Qed.

Lemma start_ns_out v factory x d : snd (start_ns v factory x d) =
  match snd (ns_start_with (v x) (factory x) x d) with
  | Ret _ => Ret tt | Err e => Err e | Panic => Panic | Hang => Hang end.
Proof. unfold start_ns. by destruct (ns_start_with _ _ _ d) as [? [?|?| |]]. Qed.

(** Namespaces whose files are apart, started one after the other. *)
Definition all_apart (l : list lns) : Prop :=
  NoDup (map ln_name l) /\ Forall (fun x => name_ok (ln_name x)) l /\
  forall x y, x ∈ l -> y ∈ l -> ln_base x = ln_base y.

Lemma all_apart_cons x l : all_apart (x :: l) ->
  all_apart l /\ forall y p, y ∈ l -> p ∈ ns_paths x -> p ∉ ns_paths y.
Proof.
  intros (Hn & Ho & Hb). cbn [map] in Hn. apply NoDup_cons in Hn as [Hx Hn].
  apply Forall_cons in Ho as [Hox Ho]. split.
  - split; [done|]. split; [done|]. intros y z Hy Hz. by apply Hb; right.
  - intros y p Hy. apply ns_paths_apart; [apply Hb; [left|by right]|done|by eapply (proj1 (Forall_forall _ _)) in Ho|].
    intros E. apply Hx. rewrite E. apply elem_of_list_fmap. by exists y.
Qed.

Definition goes_on {A : Type} (o : outcome A) : Prop := (exists a, o = Ret a) \/ exists e, o = Err e.

Lemma start_each_apart v factory l : forall d, all_apart l ->
  (forall x, x ∈ l -> goes_on (snd (start_ns v factory x d))) ->
  exists d', start_each (start_ns v factory) (map Some l) d = (d', Ret tt) /\
    (forall x, x ∈ l -> same_at (ns_paths x) d' (fst (start_ns v factory x d))) /\
    forall p, (forall x, x ∈ l -> p ∉ ns_paths x) -> d' !! p = d !! p.
Proof.
  induction l as [|x l IH]; intros d Ha Hg.
  - exists d. split; [done|]. split; [by intros x Hx%elem_of_nil|done].
  - apply all_apart_cons in Ha as [Ha Hap].
    destruct (start_ns_local v factory x d d) as (_ & _ & Hout); [by intros p Hp|].
    set (d1 := fst (start_ns v factory x d)) in *.
    assert (Hs : forall y, y ∈ l -> same_at (ns_paths y) d1 d).
    { intros y Hy p Hp. apply Hout. intros Hx. by apply (Hap y p). }
    destruct (IH d1 Ha) as (d' & He & Hin & Ho).
    { intros y Hy. destruct (start_ns_local v factory y d1 d (Hs y Hy)) as (-> & _ & _). apply Hg. by right. }
    exists d'. split; [|split].
    + cbn [map start_each]. specialize (Hg x (elem_of_list_here x l)).
      destruct (start_ns v factory x d) as [d2 o] eqn:E. cbn [fst snd] in *. subst d1.
      destruct Hg as [[a ->] | [e ->]]; exact He.
    + intros y Hy. apply elem_of_cons in Hy as [-> | Hy].
      * intros p Hp. apply Ho. intros y Hy Hpy. by apply (Hap y p).
      * intros p Hp. rewrite (Hin y Hy p Hp).
        by apply (start_ns_local v factory y d1 d (Hs y Hy)).
    + intros p Hp. rewrite (Ho p).
      * apply Hout, Hp. left.
      * intros y Hy. apply Hp. by right.
Qed.

(** No path of a namespace is that of the list. *)
Lemma ns_paths_not_json x base : json_path base ∉ ns_paths x.
Proof.
  unfold ns_paths. intros H. apply elem_of_list_fmap in H as (k & E & _).
  unfold json_path, ns_file_path in E.
  apply (f_equal last) in E. revert E. rewrite last_app.
  replace (last (ln_base x ++ ln_name x ++ ns_file_ext k)) with (last (ns_file_ext k)).
  - by destruct k.
  - rewrite app_assoc, last_app. by destruct k.
Qed.
