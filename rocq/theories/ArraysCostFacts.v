(** How many elements the searches look at. *)
From Verif Require Import Base Arrays ArraysCost.

Lemma bin_loop_erases {T} (eqb ltb : T -> T -> bool) h x fuel : forall a b k,
  fst (bin_loop_cost eqb ltb fuel h x a b k) = bin_loop eqb ltb fuel h x a b.
Proof.
  induction fuel as [|fuel IH]; intros a b k; cbn [bin_loop_cost bin_loop]; [done|].
  destruct (a <? b)%nat; [|done]. destruct (h !! _); [|done]. destruct (eqb _ _); [done|].
  destruct (ltb _ _); destruct (_ =? _)%nat; try done; apply IH.
Qed.

Lemma binary_index_of_erases {T} (eqb ltb : T -> T -> bool) h x :
  fst (binary_index_of_cost eqb ltb h x) = binary_index_of eqb ltb h x.
Proof.
  unfold binary_index_of_cost, binary_index_of. destruct h as [|y h]; [done|].
  destruct ((y :: h) !! (length (y :: h) - 1)%nat) as [z|]; [|done].
  destruct ((y :: h) !! 0%nat) as [w|]; [|done]. destruct (eqb z x); [done|]. destruct (eqb w x); [done|]. apply bin_loop_erases.
Qed.

Lemma closest_loop_erases t h x fuel : forall a b i d k,
  fst (closest_loop_cost t fuel h x a b i d k) = closest_loop t fuel h x a b i d.
Proof.
  induction fuel as [|fuel IH]; intros a b i d k; cbn [closest_loop_cost closest_loop]; [done|].
  destruct (a <? b)%nat; [|done]. destruct (h !! _) as [y|]; [|done]. destruct (x =? y); [done|].
  destruct (_ <? d); destruct (x <? y); destruct (_ =? _)%nat; try done; apply IH.
Qed.

Lemma closest_erases t h x : fst (binary_index_of_closest_cost t h x) = binary_index_of_closest t h x.
Proof.
  unfold binary_index_of_closest_cost, binary_index_of_closest. destruct h as [|y h]; [done|].
  destruct ((y :: h) !! 0%nat) as [w|]; [|done]. destruct ((y :: h) !! _) as [z|]; [|done].
  destruct (_ <? _); (destruct (_ =? 0); [done|apply closest_loop_erases]).
Qed.

(** The part that is searched is at least halved. *)
Lemma halves j a b : (a < b)%nat -> (b - a <= 2 ^ S j)%nat ->
  ((a + b) / 2 - a <= 2 ^ j)%nat /\ (b - (a + b) / 2 <= 2 ^ j)%nat.
Proof.
  intros Hab H. rewrite Nat.pow_succ_r' in H.
  pose proof (Nat.div_mod (a + b) 2 ltac:(lia)). pose proof (Nat.mod_upper_bound (a + b) 2 ltac:(lia)). lia.
Qed.

Lemma bin_loop_short {T} (eqb ltb : T -> T -> bool) h x fuel a b k : (b - a <= 0)%nat ->
  snd (bin_loop_cost eqb ltb fuel h x a b k) = k.
Proof. intros H. destruct fuel; [done|]. cbn [bin_loop_cost]. destruct (Nat.ltb_spec a b); [lia|done]. Qed.

Lemma bin_loop_bound {T} (eqb ltb : T -> T -> bool) h x j : forall fuel a b k, (b - a <= 2 ^ j)%nat ->
  (snd (bin_loop_cost eqb ltb fuel h x a b k) <= k + S j)%nat.
Proof.
  induction j as [|j IH]; intros fuel a b k H; (destruct fuel as [|fuel]; [cbn; lia|]); cbn [bin_loop_cost].
  - destruct (Nat.ltb_spec a b) as [Hab|]; [|cbn; lia].
    assert (Hm : ((a + b) / 2 = a)%nat).
    { cbn in H. replace (a + b)%nat with (1 + a * 2)%nat by lia. by rewrite Nat.div_add by lia. }
    rewrite Hm. destruct (h !! a) as [y|]; [|cbn; lia]. destruct (eqb x y); [cbn; lia|].
    destruct (ltb x y).
    + destruct (_ =? _)%nat; [cbn; lia|]. rewrite bin_loop_short by lia. lia.
    + rewrite Nat.eqb_refl. cbn. lia.
  - destruct (Nat.ltb_spec a b) as [Hab|]; [|cbn; lia].
    destruct (halves j a b Hab H) as [H1 H2].
    destruct (h !! _) as [y|]; [|cbn; lia]. destruct (eqb x y); [cbn; lia|].
    destruct (ltb x y); (destruct (_ =? _)%nat; [cbn; lia|]).
    + specialize (IH fuel a _ (S k) H1). lia.
    + specialize (IH fuel _ b (S k) H2). lia.
Qed.

Lemma closest_loop_short t h x fuel a b i d k : (b - a <= 0)%nat ->
  snd (closest_loop_cost t fuel h x a b i d k) = k.
Proof. intros H. destruct fuel; [done|]. cbn [bin_loop_cost closest_loop_cost]. destruct (Nat.ltb_spec a b); [lia|done]. Qed.

Lemma closest_loop_bound t h x j : forall fuel a b i d k, (b - a <= 2 ^ j)%nat ->
  (snd (closest_loop_cost t fuel h x a b i d k) <= k + S j)%nat.
Proof.
  induction j as [|j IH]; intros fuel a b i d k H; (destruct fuel as [|fuel]; [cbn; lia|]); cbn [closest_loop_cost].
  - destruct (Nat.ltb_spec a b) as [Hab|]; [|cbn; lia].
    assert (Hm : ((a + b) / 2 = a)%nat).
    { cbn in H. replace (a + b)%nat with (1 + a * 2)%nat by lia. by rewrite Nat.div_add by lia. }
    rewrite Hm. destruct (h !! a) as [y|]; [|cbn; lia]. destruct (x =? y); [cbn; lia|].
    destruct (_ <? d); (destruct (x <? y);
      [destruct (b =? a)%nat; [cbn; lia|]; rewrite closest_loop_short by lia; lia|rewrite Nat.eqb_refl; cbn; lia]).
  - destruct (Nat.ltb_spec a b) as [Hab|]; [|cbn; lia].
    destruct (halves j a b Hab H) as [H1 H2].
    destruct (h !! _) as [y|]; [|cbn; lia]. destruct (x =? y); [cbn; lia|].
    destruct (_ <? d); (destruct (x <? y); (destruct (_ =? _)%nat; [cbn; lia|]);
      [eapply Nat.le_trans; [apply IH, H1|lia]|eapply Nat.le_trans; [apply IH, H2|lia]]).
Qed.

(** What a computation on a slice looks at: any other slice of the same length with the
    same elements at these positions gives the same result. *)
Definition decided_by {T A} (f : list T -> A) (h : list T) (ps : list nat) : Prop :=
  forall h', length h' = length h -> (forall i, i ∈ ps -> h' !! i = h !! i) -> f h' = f h.

Lemma lookup_none_length {T} (h h' : list T) i : length h' = length h -> h !! i = None -> h' !! i = None.
Proof. rewrite !lookup_ge_None. lia. Qed.

Ltac looks_here m :=
  exists [m]; split; [cbn; lia|]; intros h' Hl Hp; pose proof (Hp m (elem_of_list_here m [])) as Hp1.
Ltac looks_on m Hd :=
  let ps := fresh "ps" in let Hk := fresh "Hk" in let Hd' := fresh "Hd" in
  destruct Hd as (ps & Hk & Hd'); exists (m :: ps); split; [rewrite Hk; cbn; lia|];
  intros h' Hl Hp; pose proof (Hp m (elem_of_list_here m ps)) as Hp1;
  pose proof (Hd' h' Hl (fun i Hi => Hp i (elem_of_list_further _ _ _ Hi))) as Hp2.

Lemma bin_loop_looks {T} (eqb ltb : T -> T -> bool) h x fuel : forall a b k, exists ps,
  snd (bin_loop_cost eqb ltb fuel h x a b k) = (k + length ps)%nat /\
  decided_by (fun h => bin_loop eqb ltb fuel h x a b) h ps.
Proof.
  induction fuel as [|fuel IH]; intros a b k; cbn [bin_loop_cost].
  { exists []. split; [cbn; lia|done]. }
  destruct (a <? b)%nat eqn:Hab.
  2: { exists []. split; [cbn; lia|]. intros h' _ _. cbn [bin_loop]. by rewrite Hab. }
  destruct (h !! _) as [y|] eqn:Hm.
  2: { exists []. split; [cbn; lia|]. intros h' Hl _. cbn [bin_loop]. rewrite Hab.
       by rewrite (lookup_none_length h h' _ Hl Hm), Hm. }
  destruct (eqb x y) eqn:He.
  { looks_here ((a + b) / 2)%nat. cbn [bin_loop]. by rewrite Hab, Hp1, Hm, He. }
  destruct (ltb x y) eqn:Hlt; destruct (_ =? _)%nat eqn:Hb.
  - looks_here ((a + b) / 2)%nat. cbn [bin_loop]. by rewrite Hab, Hp1, Hm, He, Hlt, Hb.
  - looks_on ((a + b) / 2)%nat (IH a ((a + b) / 2)%nat (S k)). cbn [bin_loop].
    by rewrite Hab, Hp1, Hm, He, Hlt, Hb.
  - looks_here ((a + b) / 2)%nat. cbn [bin_loop]. by rewrite Hab, Hp1, Hm, He, Hlt, Hb.
  - looks_on ((a + b) / 2)%nat (IH ((a + b) / 2)%nat b (S k)). cbn [bin_loop].
    by rewrite Hab, Hp1, Hm, He, Hlt, Hb.
Qed.

Lemma two_ends {T} (h : list T) : h <> [] -> exists ha hb, h !! 0%nat = Some ha /\ h !! (length h - 1)%nat = Some hb.
Proof.
  intros H. destruct (h !! 0%nat) as [ha|] eqn:Ha.
  - destruct (h !! (length h - 1)%nat) as [hb|] eqn:Hb; [by exists ha, hb|].
    apply lookup_ge_None in Hb. destruct h; [done|]. cbn in Hb. lia.
  - apply lookup_ge_None in Ha. destruct h; [done|]. cbn in Ha. lia.
Qed.

Lemma binary_index_of_eq {T} (eqb ltb : T -> T -> bool) (h : list T) x ha hb :
  h !! 0%nat = Some ha -> h !! (length h - 1)%nat = Some hb ->
  binary_index_of eqb ltb h x =
    (if eqb hb x then Ret (Z.of_nat (length h - 1))
     else if eqb ha x then Ret 0 else bin_loop eqb ltb (S (length h)) h x 0 (length h - 1)) /\
  binary_index_of_cost eqb ltb h x =
    (if eqb hb x then (Ret (Z.of_nat (length h - 1)), 1%nat)
     else if eqb ha x then (Ret 0, 2%nat) else bin_loop_cost eqb ltb (S (length h)) h x 0 (length h - 1) 2).
Proof.
  intros Ha Hb. unfold binary_index_of, binary_index_of_cost. destruct h as [|y h]; [done|].
  by rewrite Hb, Ha.
Qed.

Lemma binary_index_of_looks {T} (eqb ltb : T -> T -> bool) h x : exists ps,
  length ps = snd (binary_index_of_cost eqb ltb h x) /\
  decided_by (fun h => binary_index_of eqb ltb h x) h ps.
Proof.
  destruct (decide (h = [])) as [->|Hne].
  { exists []. split; [done|]. intros h' Hl _. by destruct h'. }
  destruct (two_ends h Hne) as (ha & hb & Ha & Hb).
  destruct (binary_index_of_eq eqb ltb h x ha hb Ha Hb) as [E1 E2].
  assert (Hother : forall h', length h' = length h -> h' !! (length h - 1)%nat = Some hb ->
    exists ha', h' !! 0%nat = Some ha' /\ binary_index_of eqb ltb h' x =
      (if eqb hb x then Ret (Z.of_nat (length h - 1))
       else if eqb ha' x then Ret 0 else bin_loop eqb ltb (S (length h)) h' x 0 (length h - 1))).
  { intros h' Hl Hb'. destruct (two_ends h') as (ha' & hb' & Ha1 & Hb1); [by intros ->; destruct h|].
    exists ha'. split; [done|]. rewrite Hl in Hb1. rewrite Hb' in Hb1. injection Hb1 as <-.
    rewrite <- Hl in Hb'. destruct (binary_index_of_eq eqb ltb h' x ha' hb Ha1 Hb') as [-> _]. by rewrite Hl. }
  rewrite E2. unfold decided_by. rewrite E1. clear E1 E2.
  destruct (eqb hb x) eqn:Eb.
  { exists [(length h - 1)%nat]. split; [done|]. intros h' Hl Hp.
    destruct (Hother h' Hl) as (ha' & _ & ->); [by rewrite Hp by set_solver|done]. }
  destruct (eqb ha x) eqn:Ea.
  { exists [(length h - 1)%nat; 0%nat]. split; [done|]. intros h' Hl Hp.
    destruct (Hother h' Hl) as (ha' & H0 & ->); [by rewrite Hp by set_solver|].
    rewrite Hp, Ha in H0 by set_solver. injection H0 as <-. by rewrite Ea. }
  destruct (bin_loop_looks eqb ltb h x (S (length h)) 0 (length h - 1) 2) as (ps & Hk & Hd).
  exists ((length h - 1)%nat :: 0%nat :: ps). split; [by rewrite Hk|]. intros h' Hl Hp.
  destruct (Hother h' Hl) as (ha' & H0 & ->); [by rewrite Hp by set_solver|].
  rewrite Hp, Ha in H0 by set_solver. injection H0 as <-. rewrite Ea. apply Hd; [done|].
  intros i Hi. apply Hp. set_solver.
Qed.

Lemma closest_loop_looks t h x fuel : forall a b i d k, exists ps,
  snd (closest_loop_cost t fuel h x a b i d k) = (k + length ps)%nat /\
  decided_by (fun h => closest_loop t fuel h x a b i d) h ps.
Proof.
  induction fuel as [|fuel IH]; intros a b i d k; cbn [closest_loop_cost].
  { exists []. split; [cbn; lia|done]. }
  destruct (a <? b)%nat eqn:Hab.
  2: { exists []. split; [cbn; lia|]. intros h' _ _. cbn [closest_loop]. by rewrite Hab. }
  destruct (h !! _) as [y|] eqn:Hm.
  2: { exists []. split; [cbn; lia|]. intros h' Hl _. cbn [closest_loop]. rewrite Hab.
       by rewrite (lookup_none_length h h' _ Hl Hm), Hm. }
  destruct (x =? y) eqn:He.
  { looks_here ((a + b) / 2)%nat. cbn [closest_loop]. by rewrite Hab, Hp1, Hm, He. }
  destruct (deviation t y x <? d) eqn:Hd0; destruct (x <? y) eqn:Hlt; destruct (_ =? _)%nat eqn:Hb.
  1,3,5,7: looks_here ((a + b) / 2)%nat; cbn [closest_loop]; by rewrite Hab, Hp1, Hm, He, Hd0, Hlt, Hb.
  - looks_on ((a + b) / 2)%nat (IH a ((a + b) / 2)%nat ((a + b) / 2)%nat (deviation t y x) (S k)).
    cbn [closest_loop]. by rewrite Hab, Hp1, Hm, He, Hd0, Hlt, Hb.
  - looks_on ((a + b) / 2)%nat (IH ((a + b) / 2)%nat b ((a + b) / 2)%nat (deviation t y x) (S k)).
    cbn [closest_loop]. by rewrite Hab, Hp1, Hm, He, Hd0, Hlt, Hb.
  - looks_on ((a + b) / 2)%nat (IH a ((a + b) / 2)%nat i d (S k)).
    cbn [closest_loop]. by rewrite Hab, Hp1, Hm, He, Hd0, Hlt, Hb.
  - looks_on ((a + b) / 2)%nat (IH ((a + b) / 2)%nat b i d (S k)).
    cbn [closest_loop]. by rewrite Hab, Hp1, Hm, He, Hd0, Hlt, Hb.
Qed.

Definition nearer_end (t : inttype) (n : nat) (ha hb x : Z) : nat * Z :=
  if deviation t hb x <? deviation t ha x then ((n - 1)%nat, deviation t hb x) else (0%nat, deviation t ha x).

Lemma closest_eq t (h : list Z) x ha hb :
  h !! 0%nat = Some ha -> h !! (length h - 1)%nat = Some hb ->
  binary_index_of_closest t h x =
    (let '(i, d) := nearer_end t (length h) ha hb x in
     if d =? 0 then Ret (Z.of_nat i) else closest_loop t (S (length h)) h x 0 (length h - 1) i d) /\
  binary_index_of_closest_cost t h x =
    (let '(i, d) := nearer_end t (length h) ha hb x in
     if d =? 0 then (Ret (Z.of_nat i), 2%nat)
     else closest_loop_cost t (S (length h)) h x 0 (length h - 1) i d 2).
Proof.
  intros Ha Hb. unfold binary_index_of_closest, binary_index_of_closest_cost. destruct h as [|y h]; [done|].
  by rewrite Hb, Ha.
Qed.

Lemma closest_looks t h x : exists ps,
  length ps = snd (binary_index_of_closest_cost t h x) /\
  decided_by (fun h => binary_index_of_closest t h x) h ps.
Proof.
  destruct (decide (h = [])) as [->|Hne].
  { exists []. split; [done|]. intros h' Hl _. by destruct h'. }
  destruct (two_ends h Hne) as (ha & hb & Ha & Hb).
  destruct (closest_eq t h x ha hb Ha Hb) as [E1 E2].
  assert (Hother : forall h', length h' = length h -> h' !! (length h - 1)%nat = h !! (length h - 1)%nat ->
    h' !! 0%nat = h !! 0%nat -> binary_index_of_closest t h' x =
    let '(i, d) := nearer_end t (length h) ha hb x in
    if d =? 0 then Ret (Z.of_nat i) else closest_loop t (S (length h)) h' x 0 (length h - 1) i d).
  { intros h' Hl H1 H0. rewrite Hb, <- Hl in H1. rewrite Ha in H0.
    destruct (closest_eq t h' x ha hb H0 H1) as [-> _]. by rewrite Hl. }
  rewrite E2. unfold decided_by. rewrite E1. clear E1 E2.
  destruct (nearer_end t (length h) ha hb x) as [i d]. destruct (d =? 0) eqn:Ed.
  { exists [(length h - 1)%nat; 0%nat]. split; [done|]. intros h' Hl Hp.
    rewrite (Hother h' Hl); [done| |]; apply Hp; set_solver. }
  destruct (closest_loop_looks t h x (S (length h)) 0 (length h - 1) i d 2) as (ps & Hk & Hd).
  exists ((length h - 1)%nat :: 0%nat :: ps). split; [by rewrite Hk|]. intros h' Hl Hp.
  rewrite (Hother h' Hl); [|apply Hp; set_solver..]. apply Hd; [done|].
  intros j Hj. apply Hp. set_solver.
Qed.
