(** Several iterators on one recdb file: C141. *)
From Verif Require Import Base GoIO Lock Profile Recdb SpecFile SpecLock SpecRecdb RecdbSession RecdbShare
  GoIOFacts CodecFacts LockFacts FileBufferFacts DeltaFacts RecdbFacts RecdbShareFacts PropIO PropRecdb.

(** * C141 *)

(** If each iterator is rewound before it is used after another one, all answer as if they
    were alone, however many there are and in whatever order they have their turns. *)
Theorem C141_in_turns_partial :
  forall rsz f l tail n turns, (0 < rsz)%nat -> usable f ->
  Forall stored_typed l -> Forall stored_fits l -> Z.of_nat (length l) < 2 ^ 32 ->
  f_data f = recdb_image 0 l ++ tail -> Forall (fun t => (t.1 < n)%nat) turns ->
  exists f' its, r_open_all n f = (f', Ret its) /\ length its = n /\
    r_turns rsz (map (fun t => (t.1, OpRewind :: t.2)) turns) (f', its) = map (fun t => ADone :: iterate l 0 t.2) turns.
Proof.
  intros rsz f l tail n turns Hr (Hc & He & _) Hty Hfi Hn Hd Ht.
  assert (Hdb : database (recdb_header 1 like_type 0 (Z.of_nat (length l))) l tail f).
  { split; [done|]. split; [|done]. rewrite Hd. unfold recdb_image. by rewrite <- app_assoc. }
  destruct (open_all_ok 1 like_type l tail f n eq_refl ltac:(unfold is_u32; lia) Hdb f) as (f' & its & E & Hl & Hk & Hcs).
  { split; [by split|done]. }
  exists f', its. split; [done|]. split; [done|]. by eapply turns_ok.
Qed.
Print Assumptions C141_in_turns_partial.

(** The first entry takes as much as a bufio.Reader reads at once. *)
Definition ex_page : stored := Stored 4096 1 7 [] [] (repeat 0 4075).
Definition ex_f5 : file := open_file KOs (recdb_image 0 [ex_page; ex_b]).
Definition ex_i5 : iter := Iter (RHeader 1 like_type 0 2) (new_breader (fset_pos 19 ex_f5)) 0 zero_entry.

Lemma ex_page_ok : stored_typed ex_page /\ stored_fits ex_page.
Proof.
  split; [|by vm_compute]. repeat (split; [done|]). split; [by constructor|]. split; [by constructor|done].
Qed.

Lemma ex_f5_turns : r_turns 4096 [(0%nat, [OpNext]); (1%nat, [OpNext])] (it_file ex_i5, [ex_i5; ex_i5]) =
  [[AEntry 4096 1 7 [] []]; [AEntry 29 1 8 [] [4]]].
Proof. by vm_compute. Qed.

(** Without that, a Next of one makes the first Next of the other return the second
    entry: the first one is skipped and no error is seen. *)
Theorem C141_independent_refuted :
  ~ (forall f l f' a b, usable f -> Forall stored_typed l -> Forall stored_fits l -> Z.of_nat (length l) < 2 ^ 32 ->
     f_data f = recdb_image 0 l -> r_open_all 2 f = (f', Ret [a; b]) ->
     r_turns 4096 [(0%nat, [OpNext]); (1%nat, [OpNext])] (f', [a; b]) = [iterate l 0 [OpNext]; iterate l 0 [OpNext]] \/
     In [AFail] (r_turns 4096 [(0%nat, [OpNext]); (1%nat, [OpNext])] (f', [a; b]))).
Proof.
  intros H. destruct ex_page_ok as [H1 H2]. destruct ex_b_ok as [H3 H4].
  destruct (H ex_f5 [ex_page; ex_b] (it_file ex_i5) ex_i5 ex_i5) as [E|E];
    [split; [done|split; [done|by left]]|by apply Forall_cons; split; [|apply Forall_cons; split]
    |by apply Forall_cons; split; [|apply Forall_cons; split]|done|reflexivity|by vm_compute| |].
  - rewrite ex_f5_turns in E. discriminate E.
  - rewrite ex_f5_turns in E. destruct E as [E|[E|[]]]; discriminate E.
Qed.
Print Assumptions C141_independent_refuted.

(** What they answer there; and on a small file, where the first one to read takes
    everything, the other one fails until it is rewound. *)
Example C141_case :
  r_turns 4096 [(0%nat, [OpNext]); (1%nat, [OpNext])] (it_file ex_i5, [ex_i5; ex_i5]) =
    [[entry_answer ex_page]; [entry_answer ex_b]] /\
  (let f := open_file KOs (recdb_image 0 [ex_b; ex_b']) in
   match r_open_all 2 f with
   | (f', Ret its) =>
     r_turns 4096 [(0%nat, [OpNext]); (1%nat, [OpNext]); (1%nat, [OpRewind; OpNext]); (0%nat, [OpNext])] (f', its) =
       [[entry_answer ex_b]; [AFail]; [ADone; entry_answer ex_b]; [entry_answer ex_b']]
   | _ => False
   end).
Proof. split; [exact ex_f5_turns|]. by vm_compute. Qed.
