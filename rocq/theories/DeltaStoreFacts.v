(** Facts about the delta storage: what Flush writes, what Open reads, and the
    relation between a storage and the history of calls that led to it. *)
From Verif Require Import Base GoIO Lock Delta SpecFile SpecLock SpecDelta GoIOFacts CodecFacts
  LockFacts DeltaFacts DeltaRecoverFacts.

(** ** Entries *)

Notation entry := (Z * item_delta)%type.

Definition rec_of (x : entry) : list byte := op_record (id_op (snd x)) (fst x) (id_item (snd x)).
Definition ent_typed (x : entry) : Prop :=
  is_byte (id_op (snd x)) /\ is_u64 (fst x) /\ is_u64 (id_item (snd x)).
Definition ent_of (e : dentry) : entry := (de_user e, ItemDelta (de_item e) (de_op e)).

Definition of_user (u : Z) (E : list entry) : list item_delta := map snd (filter (fun x => fst x = u) E).
Definition addto (c : gmap Z (list item_delta)) (E : list entry) :=
  fold_left (fun c x => cache_add c (fst x) (snd x)) E c.
Definition group (E : list entry) := addto ∅ E.

(** The op of the last delta for the item. *)
Definition flast (l : list item_delta) (i : Z) : option Z := find_delta i (rev l).
Global Arguments flast : simpl never.
Definition latest (E : list entry) (u i : Z) : option Z := flast (of_user u E) i.

Definition img (locked : Z) (E : list entry) : list byte := delta_image locked (map rec_of E).

Lemma of_user_app u a b : of_user u (a ++ b) = of_user u a ++ of_user u b.
Proof. unfold of_user. by rewrite filter_app, map_app. Qed.

Lemma of_user_cons u x E : of_user u (x :: E) = (if decide (fst x = u) then [snd x] else []) ++ of_user u E.
Proof.
  unfold of_user. destruct (decide (fst x = u)).
  - by rewrite filter_cons_True.
  - by rewrite filter_cons_False.
Qed.

Lemma addto_lookup E : forall c u, addto c E !! u =
  match of_user u E with [] => c !! u | l => Some (default [] (c !! u) ++ l) end.
Proof.
  induction E as [|x E IH]; intros c u; [done|].
  change (addto c (x :: E)) with (addto (cache_add c (fst x) (snd x)) E). rewrite IH, of_user_cons.
  unfold cache_add. destruct (decide (fst x = u)) as [<- | Hne].
  - rewrite lookup_insert. cbn [app default]. destruct (of_user (fst x) E); cbn.
    + done.
    + by rewrite <- app_assoc.
  - rewrite lookup_insert_ne by done. done.
Qed.

Lemma group_lookup E u : group E !! u = match of_user u E with [] => None | l => Some l end.
Proof. unfold group. rewrite addto_lookup, lookup_empty. by destruct (of_user u E). Qed.

Lemma addto_group a b : addto (group a) b = group (a ++ b).
Proof. unfold group, addto. by rewrite fold_left_app. Qed.

Lemma find_delta_app i a b :
  find_delta i (a ++ b) = match find_delta i a with Some o => Some o | None => find_delta i b end.
Proof. induction a as [|x a IH]; cbn; [done|]. by destruct (id_item x =? i). Qed.

Lemma flast_app a b i : flast (a ++ b) i = match flast b i with Some o => Some o | None => flast a i end.
Proof. unfold flast. by rewrite rev_app_distr, find_delta_app. Qed.

Lemma flast_one d i : flast [d] i = if id_item d =? i then Some (id_op d) else None.
Proof. done. Qed.

Lemma latest_app a b u i : latest (a ++ b) u i =
  match latest b u i with Some o => Some o | None => latest a u i end.
Proof. unfold latest. by rewrite of_user_app, flast_app. Qed.

Lemma flast_nil_iff l : (forall i, flast l i = None) -> l = [].
Proof.
  destruct l as [|x l] using rev_ind; [done|]. intros H. specialize (H (id_item x)).
  rewrite flast_app in H. unfold flast at 1 in H. cbn in H. by rewrite Z.eqb_refl in H.
Qed.

Lemma find_delta_in i l o : find_delta i l = Some o -> ItemDelta i o ∈ l.
Proof.
  induction l as [|x l IH]; cbn; [done|]. destruct (id_item x =? i) eqn:E.
  - intros [= <-]. apply Z.eqb_eq in E. destruct x; cbn in *; subst. left.
  - intros. right. auto.
Qed.

Lemma find_delta_none i l : find_delta i l = None <-> i ∉ map id_item l.
Proof.
  induction l as [|x l IH]; cbn; [split; [intros _ H; inversion H|done]|].
  destruct (id_item x =? i) eqn:E.
  - apply Z.eqb_eq in E. split; [done|]. intros H. exfalso. apply H. rewrite E. left.
  - apply Z.eqb_neq in E. rewrite IH, not_elem_of_cons. split; [|tauto]. intros. split; [congruence|done].
Qed.

Lemma flast_none i l : flast l i = None <-> i ∉ map id_item l.
Proof.
  unfold flast. rewrite find_delta_none. rewrite map_rev. by rewrite (reverse_Permutation (map id_item l)) || (rewrite <- Permutation_rev; done).
Qed.

(** ** Replacing a delta *)

Lemma replace_delta_none item op l : replace_delta item op l = None <-> item ∉ map id_item l.
Proof.
  induction l as [|x l IH]; cbn; [split; [intros _ H; inversion H|done]|].
  destruct (id_item x =? item) eqn:E.
  - apply Z.eqb_eq in E. split; [done|]. intros H. exfalso. apply H. rewrite E. left.
  - apply Z.eqb_neq in E. rewrite not_elem_of_cons, <- IH.
    destruct (replace_delta item op l); cbn; split; try done.
    + by intros [_ ?].
Qed.

Lemma replace_delta_some item op l l' : replace_delta item op l = Some l' ->
  map id_item l' = map id_item l /\ (NoDup (map id_item l) ->
    forall i, flast l' i = if item =? i then Some op else flast l i) /\
  (forall d, d ∈ l' -> d = ItemDelta item op \/ d ∈ l).
Proof.
  revert l'. induction l as [|x l IH]; intros l'; cbn; [done|].
  destruct (id_item x =? item) eqn:E.
  - apply Z.eqb_eq in E. intros [= <-]. split; [cbn; by rewrite E|]. split.
    + intros Hn i. apply NoDup_cons in Hn as [Hx Hn].
      change (ItemDelta item op :: l) with ([ItemDelta item op] ++ l).
      change (x :: l) with ([x] ++ l). rewrite !flast_app, !flast_one. cbn [id_item id_op].
      destruct (item =? i) eqn:Ei.
      * apply Z.eqb_eq in Ei. subst i. rewrite E in Hx. apply flast_none in Hx. by rewrite Hx.
      * by rewrite E, Ei.
    + intros d Hd. apply elem_of_cons in Hd as [-> | Hd]; [by left|]. right. by right.
  - destruct (replace_delta item op l) as [m|] eqn:Em; [|done]. cbn. intros [= <-].
    destruct (IH m eq_refl) as (Hm & Hf & Hin). split; [cbn; by rewrite Hm|]. split.
    + intros Hn i. apply NoDup_cons in Hn as [Hx Hn].
      change (x :: m) with ([x] ++ m). change (x :: l) with ([x] ++ l).
      rewrite !flast_app, (Hf Hn i). destruct (item =? i) eqn:Ei; [|done]. done.
    + intros d Hd. apply elem_of_cons in Hd as [-> | Hd]; [right; left|].
      destruct (Hin d Hd) as [-> | Hd']; [by left|]. right. by right.
Qed.

(** ** The unflushed deltas *)

Definition pend (m : gmap Z (list item_delta)) : list entry :=
  concat (map (fun '(u, l) => map (fun d => (u, d)) l) (map_to_list m)).

Lemma flat_perm (a b : list (Z * list item_delta)) : a ≡ₚ b ->
  concat (map (fun '(u, l) => map (fun d => (u, d)) l) a) ≡ₚ
  concat (map (fun '(u, l) => map (fun d => (u, d)) l) b).
Proof.
  induction 1 as [|[u l] a b _ IH|[u l] [v k] a|a b c _ IH1 _ IH2]; cbn.
  - done.
  - by rewrite IH.
  - rewrite !app_assoc. by rewrite (Permutation_app_comm (map _ k)).
  - by transitivity (concat (map (fun '(u, l) => map (fun d => (u, d)) l) b)).
Qed.

Lemma visit_perm sh m : visit sh m ≡ₚ pend m.
Proof. apply flat_perm, shuf_perm. Qed.

Lemma of_user_same u l : of_user u (map (fun d => (u, d)) l) = l.
Proof. induction l as [|d l IH]; [done|]. cbn [map]. rewrite of_user_cons. cbn. rewrite decide_True by done. cbn. by rewrite IH. Qed.
Lemma of_user_other u v l : u <> v -> of_user u (map (fun d => (v, d)) l) = [].
Proof. intros. induction l as [|d l IH]; [done|]. cbn [map]. rewrite of_user_cons. cbn. rewrite decide_False by done. done. Qed.

Lemma of_user_flat u (kl : list (Z * list item_delta)) : NoDup (map fst kl) ->
  of_user u (concat (map (fun '(u, l) => map (fun d => (u, d)) l) kl)) =
  default [] ((list_to_map kl : gmap Z (list item_delta)) !! u).
Proof.
  induction kl as [|[v l] kl IH]; intros Hn; cbn [map concat].
  - cbn. by rewrite lookup_empty.
  - apply NoDup_cons in Hn as [Hv Hn]. rewrite of_user_app, (IH Hn). cbn [list_to_map].
    destruct (decide (v = u)) as [<- | Hne].
    + change (list_to_map ((v, l) :: kl) : gmap Z (list item_delta)) with (<[v := l]> (list_to_map kl : gmap Z (list item_delta))).
      rewrite of_user_same, lookup_insert. cbn.
      rewrite (not_elem_of_list_to_map_1 kl v) by done. cbn. by rewrite app_nil_r.
    + change (list_to_map ((v, l) :: kl) : gmap Z (list item_delta)) with (<[v := l]> (list_to_map kl : gmap Z (list item_delta))).
      rewrite of_user_other, lookup_insert_ne by done. done.
Qed.

Lemma of_user_visit u sh m : of_user u (visit sh m) = default [] (m !! u).
Proof.
  pose proof (shuf_perm sh (map_to_list m)) as Hp.
  assert (Hn : NoDup (map fst (shuf sh (map_to_list m)))).
  { rewrite Hp. apply NoDup_fst_map_to_list. }
  unfold visit. rewrite of_user_flat by done. do 2 f_equal.
  rewrite (list_to_map_proper _ _ Hn Hp). apply list_to_map_to_list.
Qed.

Lemma pend_insert m u l : pend (<[u := l]> m) ≡ₚ map (fun d => (u, d)) l ++ pend (delete u m).
Proof.
  rewrite <- insert_delete_insert. unfold pend.
  rewrite (flat_perm _ _ (map_to_list_insert (delete u m) u l (lookup_delete m u))). done.
Qed.

Lemma pend_lookup m u l : m !! u = Some l -> pend m ≡ₚ map (fun d => (u, d)) l ++ pend (delete u m).
Proof. intros H. rewrite <- pend_insert. by rewrite insert_id. Qed.

Lemma pend_delete_none m u : m !! u = None -> pend (delete u m) = pend m.
Proof. intros. by rewrite delete_notin. Qed.

Lemma elem_of_visit sh m u d : (u, d) ∈ visit sh m <-> exists l, m !! u = Some l /\ d ∈ l.
Proof.
  rewrite (visit_perm sh m). unfold pend. rewrite elem_of_list_In, in_concat. split.
  - intros (x & Hx & Hin). apply in_map_iff in Hx as ([v l] & <- & Hl).
    apply in_map_iff in Hin as (d' & [= <- <-] & Hd).
    exists l. rewrite elem_of_list_In. split; [|done].
    apply elem_of_map_to_list. by apply elem_of_list_In.
  - intros (l & Hl & Hd). exists (map (fun d => (u, d)) l). split.
    + apply in_map_iff. exists (u, l). split; [done|].
      apply elem_of_list_In. by apply elem_of_map_to_list.
    + apply in_map_iff. exists d. split; [done|]. by apply elem_of_list_In.
Qed.

(** ** Flush *)

Lemma rec_of_enc x : ent_typed x -> enc_entry (DEntry (id_op (snd x)) (fst x) (id_item (snd x)) 0) = rec_of x.
Proof. intros (Ho & _). by apply (enc_entry_op_record (DEntry _ _ _ _)). Qed.

Lemma rec_good x : good_record (rec_of x).
Proof. split; [apply op_record_length|apply op_record_valid]. Qed.

Lemma recs_good E : Forall good_record (map rec_of E).
Proof. apply Forall_map, Forall_forall. intros. apply rec_good. Qed.

Lemma recs_len E : Forall (fun r => length r = 18%nat) (map rec_of E).
Proof. eapply Forall_impl; [apply recs_good|]. by intros r []. Qed.

Lemma recs_bytes E : Forall ent_typed E -> Forall (Forall is_byte) (map rec_of E).
Proof. intros H. apply Forall_map. eapply Forall_impl; [done|]. intros x (Ho & _). by apply op_record_bytes. Qed.

Lemma img_length locked E : length (img locked E) = (14 + 18 * length E)%nat.
Proof. unfold img. rewrite image_length by apply recs_good. by rewrite map_length. Qed.

Definition recs (E : list entry) : list byte := concat (map rec_of E).

Lemma recs_app a b : recs (a ++ b) = recs a ++ recs b.
Proof. unfold recs. by rewrite map_app, concat_app. Qed.
Lemma recs_length E : length (recs E) = (18 * length E)%nat.
Proof. unfold recs. rewrite concat_18_length by apply recs_len. by rewrite map_length. Qed.

Lemma img_enc locked E : img locked E = delta_magic ++ [1; locked] ++ be_enc 4 (Z.of_nat (length E)) ++ recs E.
Proof. unfold img. rewrite delta_image_enc. by rewrite map_length. Qed.

Lemma flush_loop_ok bsz F : Forall ent_typed F -> forall b c, bw_ok healthy b ->
  exists b', flush_loop bsz F (b, c) = ((b', addto c F), Ret tt) /\ bw_ok healthy b' /\
    bw_img (fun f => f) b' = fput (recs F) (bw_img (fun f => f) b).
Proof.
  induction 1 as [|[u d] F Hx _ IH]; intros b c Hb.
  - by exists b.
  - cbn [flush_loop]. unfold iobind at 1, on_fst, iomaperr.
    destruct (emits_entry (bw_write fwrite bsz) (bw_ok healthy) (bw_img (fun f => f))
      (bw_write_lawful fwrite healthy (fun f => f) bsz fwrite_lawful)
      (DEntry (id_op d) u (id_item d) 0) b Hb) as (b1 & -> & Hb1 & Hi1).
    destruct (IH b1 (cache_add c u d) Hb1) as (b2 & -> & Hb2 & Hi2).
    exists b2. split; [done|]. split; [done|]. rewrite Hi2, Hi1, <- fput_app.
    unfold recs at 2. cbn [map concat]. by rewrite <- (rec_of_enc (u, d) Hx).
Qed.

(** The file after Flush wrote the header and the entries [F]. *)
Definition hdr_file (total : Z) (f : file) : file :=
  fput ([1; 1] ++ be_enc 4 (u32 total)) (fset_pos 8 f).
Definition flushed_file (total : Z) (F : list entry) (f : file) : file :=
  let f1 := hdr_file total f in fput (recs F) (fset_pos (length (f_data f1)) f1).

Lemma hdr_file_healthy t f : healthy f -> healthy (hdr_file t f).
Proof. intros. by apply fput_healthy, fset_pos_healthy. Qed.
Lemma flushed_file_healthy t F f : healthy f -> healthy (flushed_file t F f).
Proof. intros. apply fput_healthy, fset_pos_healthy. by apply hdr_file_healthy. Qed.

Lemma flush_header_ok bsz s : healthy (ds_file s) -> can_seek (ds_file s) 8 ->
  flush_header bsz s =
    (DStore (ds_cache s) (ds_new s) (ds_total s) (ds_unflushed s) (hdr_file (ds_total s) (ds_file s)), Ret tt).
Proof.
  intros Hh Hs. unfold flush_header, on_dfile, iobind at 1, ignore.
  change delta_prefix_len with (Z.of_nat 8). rewrite fseek_start_nat by done. cbn [fst].
  unfold with_bufio, iobind, iomaperr.
  destruct (emits_header (bw_write fwrite bsz) (bw_ok healthy) (bw_img (fun f => f))
    (bw_write_lawful fwrite healthy (fun f => f) bsz fwrite_lawful)
    (DHeader delta_version 1 (u32 (ds_total s))) (new_bwriter (fset_pos 8 (ds_file s)))) as (b1 & -> & Hb1 & Hi1).
  { done. }
  destruct (bw_flush_lawful fwrite healthy (fun f => f) b1 fwrite_lawful Hb1) as (w & -> & Hw & Hi2).
  cbn [bw_w]. do 2 f_equal. rewrite Hi2, Hi1. done.
Qed.

Lemma flush_entries_ok bsz sh s : healthy (ds_file s) -> Forall ent_typed (visit sh (ds_new s)) ->
  flush_entries bsz sh s =
    (DStore (addto (ds_cache s) (visit sh (ds_new s))) ∅ (ds_total s) 0
       (fput (recs (visit sh (ds_new s))) (fset_pos (length (f_data (ds_file s))) (ds_file s))), Ret tt).
Proof.
  intros Hh Ht. unfold flush_entries. rewrite fseek_end by done. cbn [fst].
  unfold iobind at 1.
  destruct (flush_loop_ok bsz (visit sh (ds_new s)) Ht
    (new_bwriter (fset_pos (length (f_data (ds_file s))) (ds_file s))) (ds_cache s)) as (b1 & -> & Hb1 & Hi1).
  { done. }
  unfold on_fst, iomaperr.
  destruct (bw_flush_lawful fwrite healthy (fun f => f) b1 fwrite_lawful Hb1) as (w & -> & Hw & Hi2).
  cbn [bw_w]. do 2 f_equal. rewrite Hi2, Hi1. done.
Qed.

Lemma d_flush_ok bsz sh s : healthy (ds_file s) -> can_seek (ds_file s) 8 ->
  Forall ent_typed (visit sh (ds_new s)) ->
  d_flush bsz sh s =
    (DStore (addto (ds_cache s) (visit sh (ds_new s))) ∅ (ds_total s) 0
       (flushed_file (ds_total s) (visit sh (ds_new s)) (ds_file s)), Ret tt).
Proof.
  intros Hh Hs Ht. unfold d_flush, iobind, iomaperr. rewrite flush_header_ok by done.
  rewrite flush_entries_ok; [done| |done]. cbn. by apply hdr_file_healthy.
Qed.

Lemma splice_header d m : length d = 6%nat ->
  splice 8 d (delta_magic ++ m) = delta_magic ++ d ++ drop 6 m.
Proof.
  intros Hd. unfold splice. rewrite take_app_le by (rewrite app_length; cbn; lia).
  rewrite take_app_alt by done. by rewrite Hd.
Qed.

Lemma hdr_file_data t E f : f_data f = img 1 E ->
  f_data (hdr_file t f) = delta_magic ++ [1; 1] ++ be_enc 4 (u32 t) ++ recs E.
Proof.
  intros Hd. unfold hdr_file. rewrite fput_data.
  - cbn [fset_pos f_pos f_data]. rewrite Hd, img_enc. rewrite splice_header by done.
    rewrite <- app_assoc. do 3 f_equal.
  - cbn [fset_pos f_pos f_data]. rewrite Hd, img_length. lia.
Qed.

Lemma flushed_data t E F f : f_data f = img 1 E -> u32 t = Z.of_nat (length E + length F) ->
  f_data (flushed_file t F f) = img 1 (E ++ F).
Proof.
  intros Hd Ht. unfold flushed_file. rewrite fput_data by (cbn; lia). cbn [fset_pos f_pos f_data].
  rewrite splice_end, (hdr_file_data t E f Hd), img_enc, recs_app, app_length, Ht.
  by rewrite <- !app_assoc.
Qed.

(** However many records there are. *)
Lemma flushed_data_any t E F f : f_data f = img 1 E -> t = Z.of_nat (length E + length F) ->
  f_data (flushed_file t F f) = img 1 (E ++ F).
Proof.
  intros Hd Ht. unfold flushed_file. rewrite fput_data by (cbn; lia). cbn [fset_pos f_pos f_data].
  rewrite splice_end, (hdr_file_data t E f Hd), img_enc, recs_app, app_length, <- Ht.
  change (u32 t) with (t mod 256 ^ Z.of_nat 4). rewrite be_enc_mod. by rewrite <- !app_assoc.
Qed.

(** ** Open *)

Section follow.
  Context {R F : Type} (rd : reader R) (ok : R -> Prop) (rem : R -> list byte) (fr : R -> F).
  Hypothesis L : lawful_any rd ok rem fr.

  Lemma follows_load_entries n : forall c, follows ok rem fr (load_entries rd n c) (load_entries lread n c).
  Proof.
    induction n as [|n IH]; intros c; cbn [load_entries]; [apply follows_ret|].
    apply follows_bind; [apply follows_maperr; by apply follows_entry|]. intros e. apply IH.
  Qed.

  Lemma follows_load : follows ok rem fr (d_load rd) (d_load lread).
  Proof.
    unfold d_load. apply follows_bind; [by apply follows_prefix|]. intros [].
    apply follows_bind; [by apply follows_header|]. intros h.
    destruct (negb _); [apply follows_fail|].
    apply follows_bind; [apply follows_load_entries|]. intros c. apply follows_ret.
  Qed.
End follow.

Lemma load_entries_app rs : Forall (fun r => length r = 18%nat) rs -> forall c tail,
  load_entries lread (length rs) c (concat rs ++ tail) =
    (tail, Ret (addto c (map (fun r => ent_of (dec_entry r)) rs))).
Proof.
  induction 1 as [|r rs Hr _ IH]; intros c tail; [done|].
  cbn [load_entries length concat]. unfold iobind, iomaperr. rewrite <- app_assoc.
  rewrite read_entry_app by done. rewrite IH. done.
Qed.

Lemma load_entries_short n : forall c l, (length l < 18 * n)%nat ->
  exists l' e, load_entries lread n c l = (l', Err e).
Proof.
  induction n as [|n IH]; intros c l Hl; [lia|].
  cbn [load_entries]. unfold iobind, iomaperr.
  destruct (decide (length l < 18)%nat) as [Hs | Hs].
  - destruct (read_entry_short l Hs) as (l' & e & ->). eauto.
  - rewrite <- (take_drop 18 l). rewrite read_entry_app by (rewrite take_length; lia).
    apply IH. rewrite drop_length. lia.
Qed.

(** What Open makes of the content of a non-empty file. *)
Lemma d_load_bad l :
  take 8 l <> delta_magic \/ (length l < 14)%nat \/
  (exists x, l !! 9%nat = Some x /\ x <> 0) \/
  (length l < 14 + 18 * Z.to_nat (be_dec (take 4 (drop 10 l))))%nat ->
  exists l' e, d_load lread l = (l', Err e).
Proof.
  intros H. unfold d_load, iobind at 1.
  destruct (decide (take 8 l = delta_magic)) as [Hm | Hm].
  2:{ destruct (read_prefix_bad l Hm) as (l' & e & ->). eauto. }
  assert (El : d_read_prefix lread l = (drop 8 l, Ret tt)).
  { rewrite <- (read_prefix_ok (drop 8 l)), <- Hm. by rewrite take_drop. }
  rewrite El. unfold iobind at 1.
  destruct (decide (length l < 14)%nat) as [Hs | Hs].
  { destruct (read_header_short (drop 8 l)) as (e & ->); [rewrite drop_length; lia|]. eauto. }
  destruct (lookup_lt_is_Some_2 l 8) as [v Hv]; [lia|].
  destruct (lookup_lt_is_Some_2 l 9) as [x Hx]; [lia|].
  assert (E8 : drop 8 l = v :: x :: take 4 (drop 10 l) ++ drop 14 l).
  { rewrite (drop_S l v 8), (drop_S l x 9) by done. do 2 f_equal.
    replace (drop 14 l) with (drop 4 (drop 10 l)) by (by rewrite drop_drop). by rewrite take_drop. }
  rewrite E8, read_header_app by (rewrite take_length, drop_length; lia).
  cbn [dh_locked dh_count].
  destruct H as [H | [H | [(x' & Hx' & Hne) | H]]]; [done|lia| |].
  - assert (x' = x) as -> by congruence. rewrite (proj2 (Z.eqb_neq x 0)) by done. cbn. eauto.
  - destruct (x =? 0); cbn [negb]; [|cbn; eauto].
    unfold iobind.
    destruct (load_entries_short (Z.to_nat (be_dec (take 4 (drop 10 l)))) ∅ (drop 14 l)) as (l' & e & ->).
    { rewrite drop_length. lia. }
    eauto.
Qed.

Lemma d_load_ok v c rs tail : length c = 4%nat -> be_dec c = Z.of_nat (length rs) ->
  Forall (fun r => length r = 18%nat) rs ->
  d_load lread (delta_magic ++ v :: 0 :: c ++ concat rs ++ tail) =
    (tail, Ret (group (map (fun r => ent_of (dec_entry r)) rs), Z.of_nat (length rs))).
Proof.
  intros Hc Hn Hr. unfold d_load, iobind. rewrite read_prefix_ok, read_header_app by done.
  cbn [dh_locked dh_count negb Z.eqb]. rewrite Hn, Nat2Z.id, load_entries_app by done. done.
Qed.

Definition reading_ok (f : file) : Prop := healthy f /\ (f_pos f <= length (f_data f))%nat.

(** Open of a non-empty file. *)
Lemma d_open_nonempty f : healthy f -> f_data f <> [] ->
  exists p, (p <= length (f_data f))%nat /\
  d_open f =
    match snd (d_load lread (f_data f)) with
    | Ret (c, n) =>
      let f' := File (f_kind f) (splice 9 [1] (f_data f)) p false [] (f_log f ++ [WSet 9 1]) in
      (f', Ret (DStore c ∅ n 0 f'))
    | Err e => (fset_pos p f, Err e)
    | Panic => (fset_pos p f, Panic)
    | Hang => (fset_pos p f, Hang)
    end.
Proof.
  intros Hh Hd. unfold d_open, iobind at 1. rewrite fseek_end by done.
  assert (Hn : (Z.of_nat (length (f_data f)) =? 0) = false).
  { apply Z.eqb_neq. destruct (f_data f); [done|]. cbn. lia. }
  rewrite Hn. unfold iobind at 1 2.
  change 0 with (Z.of_nat 0) at 1. rewrite fseek_start_nat; [|done|right; cbn; lia].
  set (f0 := fset_pos 0 _).
  destruct (follows_load fread reading_ok frem fframe fread_lawful_in f0) as (f1 & -> & [Hh1 Hp1] & Hrem & Hfr).
  { split; [done|]. cbn. lia. }
  assert (Hf0 : frem f0 = f_data f) by (unfold frem; cbn; by rewrite drop_0).
  rewrite Hf0 in *.
  assert (Hf1 : f1 = fset_pos (f_pos f1) f).
  { destruct f1, f. unfold fframe, f0, fset_pos in *. cbn in *. congruence. }
  assert (Hd1 : f_data f1 = f_data f) by (by rewrite Hf1).
  exists (f_pos f1). split; [by rewrite <- Hd1|].
  destruct (d_load lread (f_data f)) as [l' o] eqn:El. cbn [snd fst] in *.
  destruct o as [[c n]| | |]; try (by rewrite Hf1).
  unfold iobind, iomaperr, d_write_locked. change delta_locked_offset with (Z.of_nat 9).
  assert (Hlen : (14 <= length (f_data f))%nat).
  { destruct (decide (14 <= length (f_data f))%nat) as [|Hs]; [done|].
    destruct (d_load_bad (f_data f)) as (? & ? & Hbad); [right; left; lia|]. congruence. }
  rewrite write_locked_ok; [|done|right; rewrite Hd1; by rewrite <- Hd1|right; rewrite Hd1; lia].
  cbn [fst snd]. rewrite Hd1. rewrite Hf1. cbn [fset_pos f_kind f_pos f_log]. done.
Qed.

Lemma splice_lock x m : splice 9 [1] (delta_magic ++ 1 :: x :: m) = delta_magic ++ 1 :: 1 :: m.
Proof. done. Qed.

Lemma dec_rec_of x : ent_typed x -> ent_of (dec_entry (rec_of x)) = x.
Proof.
  intros (Ho & Hu & Hi). unfold rec_of. rewrite dec_op_record by done. destruct x as [u [i o]]. done.
Qed.

Lemma map_dec_rec E : Forall ent_typed E -> map (fun r => ent_of (dec_entry r)) (map rec_of E) = E.
Proof.
  induction 1 as [|x E Hx _ IH]; cbn [map]; [done|]. by rewrite dec_rec_of, IH.
Qed.

(** Open of a well-formed unlocked file. *)
Lemma d_open_image f E : healthy f -> Forall ent_typed E -> Z.of_nat (length E) < 2 ^ 32 ->
  f_data f = img 0 E ->
  exists p, (p <= length (f_data f))%nat /\
  let f' := File (f_kind f) (img 1 E) p false [] (f_log f ++ [WSet 9 1]) in
  d_open f = (f', Ret (DStore (group E) ∅ (Z.of_nat (length E)) 0 f')).
Proof.
  intros Hh Ht Hn Hd.
  assert (Hi : forall b, img b E = delta_magic ++ 1 :: b :: be_enc 4 (Z.of_nat (length E)) ++ recs E ++ []).
  { intros b. by rewrite img_enc, app_nil_r. }
  destruct (d_open_nonempty f Hh) as (p & Hp & Ho).
  { rewrite Hd, Hi. done. }
  exists p. split; [done|]. rewrite Ho, Hd, (Hi 0), (Hi 1). unfold recs.
  rewrite d_load_ok; [|apply be_enc_length| |apply recs_len].
  - cbn [snd]. rewrite map_dec_rec by done. rewrite splice_lock, map_length. done.
  - rewrite be_dec_enc; [by rewrite map_length|]. rewrite pow256_4. lia.
Qed.

(** Open of an empty file. *)
Lemma d_open_empty f : healthy f -> f_data f = [] ->
  exists log, let f' := File (f_kind f) (img 1 []) 14 false [] log in
  d_open f = (f', Ret (DStore ∅ ∅ 0 0 f')).
Proof.
  intros Hh Hd. unfold d_open, iobind at 1. rewrite fseek_end by done. rewrite Hd. cbn [length Z.of_nat Z.eqb].
  set (m := iobind (d_write_prefix fwrite) _).
  assert (Hm : emits healthy (fun f => f) m (delta_prefix ++ enc_header (DHeader delta_version 0 0) ++ []) (∅, 0)).
  { eapply emits_bind; [apply emits_prefix, fwrite_lawful|].
    eapply emits_bind; [apply emits_header, fwrite_lawful|]. apply emits_ret. }
  destruct (Hm (fset_pos 0 f)) as (f2 & Hm2 & Hh2 & Hf2); [by apply fset_pos_healthy|].
  change (Z.of_nat 0 =? 0) with true. cbv iota. unfold iobind at 1. rewrite Hm2. rewrite app_nil_r, delta_prefix_magic in Hf2.
  unfold iobind, iomaperr, d_write_locked. change delta_locked_offset with (Z.of_nat 9).
  assert (Hd2 : f_data f2 = img 0 []).
  { rewrite Hf2, fput_data by (cbn; lia). cbn [fset_pos f_pos f_data]. by rewrite Hd. }
  assert (Hp2 : f_pos f2 = 14%nat) by (rewrite Hf2, fput_pos; done).
  assert (Hk2 : f_kind f2 = f_kind f) by (by rewrite Hf2, fput_kind).
  rewrite write_locked_ok; [|done|right; rewrite Hd2, Hp2; cbn; lia|right; rewrite Hd2; cbn; lia].
  rewrite Hd2, Hp2, Hk2. exists (f_log f2 ++ [WSet 9 (lock_bit true)]). done.
Qed.
