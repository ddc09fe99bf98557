(** The parser of Json.v recognises exactly the grammar of SpecJson.v. *)
From Verif Require Import Base Json SpecJson.

(** ** Characters *)
Lemma is_ws_spec c : is_ws c = true <-> ws_char c.
Proof. unfold is_ws, ws_char. rewrite !orb_true_iff, !Z.eqb_eq. tauto. Qed.
Lemma is_digit_spec c : is_digit c = true <-> dec c.
Proof. unfold is_digit, dec. lia. Qed.
Lemma is_hex_spec c : is_hex c = true <-> hex c.
Proof.
  unfold is_hex, hex. rewrite !orb_true_iff, is_digit_spec, !andb_true_iff, !Z.leb_le. tauto.
Qed.

Lemma skip_ws_split s : exists w, ws w /\ s = w ++ skip_ws s.
Proof.
  induction s as [|c s (w & Hw & E)]; [exists []; split; [constructor|done]|]. cbn.
  destruct (is_ws c) eqn:D.
  - exists (c :: w). split; [|cbn; by rewrite <- E]. constructor; [by apply is_ws_spec|done].
  - exists []. split; [constructor|done].
Qed.

Lemma skip_ws_head s c r : skip_ws s = c :: r -> is_ws c = false.
Proof.
  induction s as [|d s IH]; [done|]. cbn. destruct (is_ws d) eqn:D; [done|]. by intros [= <- <-].
Qed.

Lemma skip_ws_app w s : ws w -> skip_ws (w ++ s) = skip_ws s.
Proof.
  induction 1 as [|c w Hc Hw IH]; [done|]. cbn. apply is_ws_spec in Hc. by rewrite Hc.
Qed.

Lemma skip_ws_stop c s : is_ws c = false -> skip_ws (c :: s) = c :: s.
Proof. intros H. cbn. by rewrite H. Qed.

Lemma literal_spec l : forall s r, literal l s = Some r <-> s = l ++ r.
Proof.
  induction l as [|c l IH]; intros s r; cbn.
  - split; [by intros [= ->]|by intros ->].
  - destruct s as [|d s]; [done|]. destruct (Z.eqb_spec c d) as [->|N].
    + rewrite IH. split; [by intros ->|by intros [= ->]].
    + split; [done|]. intros [= ? _]. congruence.
Qed.

(** ** Numbers *)
Definition no_digit (s : list byte) : Prop := forall c s', s = c :: s' -> is_digit c = false.

Lemma skip_digits_split s : exists ds, Forall dec ds /\ s = ds ++ skip_digits s.
Proof.
  induction s as [|c s (w & Hw & E)]; [exists []; split; [constructor|done]|]. cbn.
  destruct (is_digit c) eqn:D.
  - exists (c :: w). split; [|cbn; by rewrite <- E]. constructor; [by apply is_digit_spec|done].
  - exists []. split; [constructor|done].
Qed.

Lemma skip_digits_app ds s : Forall dec ds -> no_digit s -> skip_digits (ds ++ s) = s.
Proof.
  induction 1 as [|c w Hc Hw IH]; intros Hs; cbn.
  - destruct s as [|c s]; [done|]. cbn. by rewrite (Hs c s eq_refl).
  - apply is_digit_spec in Hc. rewrite Hc. by apply IH.
Qed.

Lemma digits1_sound s r : digits1 s = Some r -> exists ds, decs ds /\ s = ds ++ r.
Proof.
  destruct s as [|c s]; [done|]. cbn. destruct (is_digit c) eqn:D; [|done]. intros [= <-].
  destruct (skip_digits_split s) as (ds & Hd & E). exists (c :: ds). split; [split; [done|]|cbn; by rewrite <- E].
  constructor; [by apply is_digit_spec|done].
Qed.

Lemma digits1_complete ds s : decs ds -> no_digit s -> digits1 (ds ++ s) = Some s.
Proof.
  intros [Hne Hd] Hs. destruct ds as [|c ds]; [done|]. apply Forall_cons in Hd as [Hc Hd].
  cbn. apply is_digit_spec in Hc. rewrite Hc. f_equal. by apply skip_digits_app.
Qed.

Lemma num_exp_sound s r : num_exp s = Some r -> exists e, exp_part e /\ s = e ++ r.
Proof.
  destruct s as [|c s]; cbn; [intros [= <-]; exists []; split; [by left|done]|].
  destruct ((c =? 101) || (c =? 69)) eqn:Ec.
  2: { intros [= <-]. exists []. split; [by left|done]. }
  apply orb_true_iff in Ec. rewrite !Z.eqb_eq in Ec.
  destruct s as [|d s]; [done|]. destruct ((d =? 43) || (d =? 45)) eqn:Ed.
  - apply orb_true_iff in Ed. rewrite !Z.eqb_eq in Ed. intros H.
    apply digits1_sound in H as (ds & Hd & ->). exists (c :: d :: ds). split; [|done].
    right. exists c, [d], ds. split; [done|]. split; [|done].
    destruct Ed as [->| ->]; auto.
  - intros H. apply digits1_sound in H as (ds & Hd & E). exists (c :: ds). split; [|cbn; by rewrite E].
    right. exists c, [], ds. split; [done|]. split; [by left|done].
Qed.

Lemma num_frac_sound s r :
  num_frac s = Some r -> exists f e, frac_part f /\ exp_part e /\ s = f ++ e ++ r.
Proof.
  destruct s as [|c s]; cbn [num_frac].
  { intros [= <-]. exists [], []. split; [by left|]. split; [by left|done]. }
  destruct (Z.eqb_spec c 46) as [->|N].
  - destruct (digits1 s) as [r1|] eqn:E1; [|done]. intros H.
    apply digits1_sound in E1 as (ds & Hd & ->). apply num_exp_sound in H as (e & He & ->).
    exists (46 :: ds), e. split; [right; by exists ds|]. split; [done|]. done.
  - intros H. apply num_exp_sound in H as (e & He & E). exists [], e. split; [by left|]. by split.
Qed.

(** The literal patterns of the parser, as comparisons. *)
Ltac by_bits c := destruct c as [|p|p]; try reflexivity;
  do 8 (try (destruct p as [p|p|]; try reflexivity)).

Definition after_char (x : byte) (s : list byte) : option (list byte) :=
  match s with c :: r => if c =? x then Some r else None | [] => None end.

Lemma after_char_some x s r : after_char x s = Some r <-> s = x :: r.
Proof.
  destruct s as [|c s]; cbn; [done|]. destruct (Z.eqb_spec c x) as [->|N].
  - split; [by intros [= ->]|by intros [= ->]].
  - split; [done|]. intros [= ? _]. congruence.
Qed.

Lemma match_45 {A} s (f : list byte -> A) g :
  match s with 45 :: r => f r | _ => g end =
  match after_char 45 s with Some r => f r | None => g end.
Proof. destruct s as [|c s]; [done|]. cbn. by_bits c. Qed.
Lemma match_34 {A} s (f : list byte -> A) g :
  match s with 34 :: r => f r | _ => g end =
  match after_char 34 s with Some r => f r | None => g end.
Proof. destruct s as [|c s]; [done|]. cbn. by_bits c. Qed.
Lemma match_58 {A} s (f : list byte -> A) g :
  match s with 58 :: r => f r | _ => g end =
  match after_char 58 s with Some r => f r | None => g end.
Proof. destruct s as [|c s]; [done|]. cbn. by_bits c. Qed.
Lemma match_93 {A} s (f : list byte -> A) g :
  match s with 93 :: r => f r | _ => g end =
  match after_char 93 s with Some r => f r | None => g end.
Proof. destruct s as [|c s]; [done|]. cbn. by_bits c. Qed.
Lemma match_125 {A} s (f : list byte -> A) g :
  match s with 125 :: r => f r | _ => g end =
  match after_char 125 s with Some r => f r | None => g end.
Proof. destruct s as [|c s]; [done|]. cbn. by_bits c. Qed.
Lemma match_44_93 {A} s (f1 f2 : list byte -> A) g :
  match s with 44 :: r => f1 r | 93 :: r => f2 r | _ => g end =
  match after_char 44 s with
  | Some r => f1 r
  | None => match after_char 93 s with Some r => f2 r | None => g end
  end.
Proof. destruct s as [|c s]; [done|]. cbn. by_bits c. Qed.
Lemma match_44_125 {A} s (f1 f2 : list byte -> A) g :
  match s with 44 :: r => f1 r | 125 :: r => f2 r | _ => g end =
  match after_char 44 s with
  | Some r => f1 r
  | None => match after_char 125 s with Some r => f2 r | None => g end
  end.
Proof. destruct s as [|c s]; [done|]. cbn. by_bits c. Qed.

Definition json_unsigned (s : list byte) : option (list byte) :=
  match s with
  | c :: s' =>
    if c =? 48 then num_frac s'
    else if is_digit c then num_frac (skip_digits s')
    else None
  | [] => None
  end.

Lemma json_number_eq s :
  json_number s = json_unsigned (match after_char 45 s with Some r => r | None => s end).
Proof. unfold json_number. by rewrite (match_45 s (fun r => r) s). Qed.

Lemma json_unsigned_sound s r : json_unsigned s = Some r ->
  exists i f e, int_part i /\ frac_part f /\ exp_part e /\ s = i ++ f ++ e ++ r.
Proof.
  destruct s as [|c s]; [done|]. cbn. destruct (Z.eqb_spec c 48) as [->|N].
  - intros H. apply num_frac_sound in H as (f & e & Hf & He & ->).
    exists [48], f, e. split; [by left|]. by split.
  - destruct (is_digit c) eqn:D; [|done]. intros H.
    apply num_frac_sound in H as (f & e & Hf & He & E).
    destruct (skip_digits_split s) as (ds & Hd & Es).
    exists (c :: ds), f, e. split; [|split; [done|split; [done|]]].
    + right. exists c, ds. split; [done|]. split; [|done]. apply is_digit_spec in D. unfold dec in D. lia.
    + cbn. by rewrite <- E, <- Es.
Qed.

Lemma json_number_sound s r : json_number s = Some r -> exists n, number n /\ s = n ++ r.
Proof.
  rewrite json_number_eq. destruct (after_char 45 s) as [s'|] eqn:E.
  - apply after_char_some in E as ->. intros H.
    apply json_unsigned_sound in H as (i & f & e & Hi & Hf & He & ->).
    exists (45 :: i ++ f ++ e). split; [|cbn; by rewrite <- !app_assoc].
    exists [45], i, f, e. split; [by right|]. done.
  - intros H. apply json_unsigned_sound in H as (i & f & e & Hi & Hf & He & ->).
    exists (i ++ f ++ e). split; [|by rewrite <- !app_assoc].
    exists [], i, f, e. split; [by left|]. done.
Qed.

(** What follows a value: nothing, white space, a comma or a closing bracket. *)
Definition stop_char (c : byte) : Prop := ws_char c \/ c = 44 \/ c = 93 \/ c = 125.
Definition stops (s : list byte) : Prop := forall c s', s = c :: s' -> stop_char c.

Lemma stops_nil : stops [].
Proof. intros c s'. done. Qed.
Lemma stops_cons c s : stop_char c -> stops (c :: s).
Proof. intros H c' s' [= <- <-]. done. Qed.
Lemma stops_ws w s : ws w -> stops s -> stops (w ++ s).
Proof. intros [|c w' Hc Hw] Hs; [done|]. apply stops_cons. by left. Qed.

Lemma stops_no_digit s : stops s -> no_digit s.
Proof.
  intros H c s' E. specialize (H c s' E). unfold stop_char, ws_char in H.
  destruct (is_digit c) eqn:D; [|done]. apply is_digit_spec in D. unfold dec in D. lia.
Qed.

Lemma exp_no_digit e s : exp_part e -> stops s -> no_digit (e ++ s).
Proof.
  intros [->|(x & sg & ds & Hx & _ & _ & ->)] Hs; [by apply stops_no_digit|].
  intros c s' [= <- _]. destruct Hx as [->| ->]; done.
Qed.

Lemma num_exp_complete e s : exp_part e -> stops s -> num_exp (e ++ s) = Some s.
Proof.
  intros [->|(x & sg & ds & Hx & Hsg & Hds & ->)] Hs.
  - destruct s as [|c s]; [done|]. cbn. specialize (Hs c s eq_refl).
    unfold stop_char, ws_char in Hs.
    replace ((c =? 101) || (c =? 69)) with false; [done|]. symmetry.
    apply orb_false_iff. rewrite !Z.eqb_neq. lia.
  - pose proof (stops_no_digit s Hs) as Hn.
    assert (Ex : (x =? 101) || (x =? 69) = true) by (destruct Hx as [->| ->]; done).
    cbn [num_exp app]. rewrite Ex. destruct Hsg as [->|Hsg].
    + cbn [app]. destruct ds as [|d ds]; [by destruct Hds|]. cbn [app].
      destruct Hds as [_ Hd]. pose proof (Forall_inv Hd) as Hd0. unfold dec in Hd0.
      replace ((d =? 43) || (d =? 45)) with false
        by (symmetry; apply orb_false_iff; rewrite !Z.eqb_neq; lia).
      apply (digits1_complete (d :: ds)); [|done]. split; [done|done].
    + destruct Hsg as [->| ->]; cbn; by apply digits1_complete.
Qed.

Lemma num_frac_complete f e s : frac_part f -> exp_part e -> stops s ->
  num_frac (f ++ e ++ s) = Some s.
Proof.
  intros [->|(ds & Hd & ->)] He Hs.
  - cbn [app]. assert (N : forall c r, e ++ s = c :: r -> c <> 46).
    { intros c r E. destruct He as [->|(x & sg & ds & Hx & _ & _ & ->)].
      - specialize (Hs c r E). unfold stop_char, ws_char in Hs. lia.
      - injection E as <- _. lia. }
    pose proof (num_exp_complete e s He Hs) as X.
    destruct (e ++ s) as [|c r] eqn:E; [done|]. cbn [num_frac].
    specialize (N c r eq_refl). apply Z.eqb_neq in N. by rewrite N.
  - cbn. rewrite digits1_complete; [|done|by apply exp_no_digit]. by apply num_exp_complete.
Qed.

Lemma frac_no_digit f e s : frac_part f -> exp_part e -> stops s -> no_digit (f ++ e ++ s).
Proof.
  intros [->|(ds & Hd & ->)] He Hs; [by apply (exp_no_digit e s)|]. intros c s' E.
  by injection E as <- _.
Qed.

Lemma json_number_complete n s : number n -> stops s -> json_number (n ++ s) = Some s.
Proof.
  intros (sg & i & f & e & Hsg & Hi & Hf & He & ->) Hs.
  assert (U : json_unsigned (i ++ f ++ e ++ s) = Some s).
  { destruct Hi as [->|(c & ds & -> & Hc & Hd)].
    - cbn. by apply num_frac_complete.
    - cbn. replace (c =? 48) with false by (symmetry; apply Z.eqb_neq; lia).
      replace (is_digit c) with true by (symmetry; apply is_digit_spec; unfold dec; lia).
      rewrite skip_digits_app; [|done|by apply frac_no_digit]. by apply num_frac_complete. }
  rewrite json_number_eq, <- !app_assoc. destruct Hsg as [->| ->]; [|exact U].
  cbn [app]. replace (after_char 45 (i ++ f ++ e ++ s)) with (@None (list byte)); [exact U|].
  destruct Hi as [->|(c & ds & -> & Hc & Hd)]; cbn; [done|].
  by replace (c =? 45) with false by (symmetry; apply Z.eqb_neq; lia).
Qed.

(** How a number begins. *)
Lemma number_head n : number n -> exists c r, n = c :: r /\ (c = 45 \/ dec c).
Proof.
  intros (sg & i & f & e & Hsg & Hi & _ & _ & ->). destruct Hsg as [->| ->].
  - destruct Hi as [->|(c & ds & -> & Hc & Hd)]; cbn.
    + eexists _, _. split; [done|]. right. unfold dec. lia.
    + eexists _, _. split; [done|]. right. unfold dec. lia.
  - eexists _, _. split; [done|]. by left.
Qed.

(** ** Strings *)
Lemma escape_spec d : existsb (Z.eqb d) [98; 102; 110; 114; 116; 92; 47; 34] = true <->
  d ∈ [34; 92; 47; 98; 102; 110; 114; 116].
Proof.
  cbn [existsb]. rewrite !orb_true_iff, !Z.eqb_eq, !elem_of_cons, elem_of_nil. 
  split; intros H; repeat (destruct H as [H|H]; [subst; tauto|]); done.
Qed.

Lemma json_string_sound fuel : forall s r, json_string fuel s = Some r ->
  exists cs, chars cs /\ s = cs ++ 34 :: r.
Proof.
  induction fuel as [|fuel IH]; [done|]. intros [|c s] r H; [done|].
  cbn [json_string] in H. destruct (Z.eqb_spec c 34) as [->|N34].
  { injection H as <-. exists []. split; [constructor|done]. }
  destruct (Z.eqb_spec c 92) as [->|N92].
  - destruct s as [|d s]; [done|].
    destruct (existsb (Z.eqb d) [98; 102; 110; 114; 116; 92; 47; 34]) eqn:Ed.
    + apply escape_spec in Ed. apply IH in H as (cs & Hc & ->).
      exists (92 :: d :: cs). split; [by constructor|done].
    + destruct (Z.eqb_spec d 117) as [->|N]; [|done].
      destruct s as [|h1 [|h2 [|h3 [|h4 s]]]]; try done.
      destruct (is_hex h1 && is_hex h2 && is_hex h3 && is_hex h4) eqn:Eh; [|done].
      rewrite !andb_true_iff, !is_hex_spec in Eh. destruct Eh as [[[? ?] ?] ?].
      apply IH in H as (cs & Hc & ->).
      exists (92 :: 117 :: h1 :: h2 :: h3 :: h4 :: cs). split; [by constructor|done].
  - destruct (Z.ltb_spec c 32) as [L|L]; [done|].
    apply IH in H as (cs & Hc & ->). exists (c :: cs). split; [by constructor|done].
Qed.

Lemma json_string_complete cs : chars cs -> forall r fuel, (length cs < fuel)%nat ->
  json_string fuel (cs ++ 34 :: r) = Some r.
Proof.
  induction 1 as [|c s H1 H2 H3 Hs IH|d s Hd Hs IH|h1 h2 h3 h4 s H1 H2 H3 H4 Hs IH];
    intros r fuel Hf; (destruct fuel as [|fuel]; [lia|]).
  - done.
  - cbn [app json_string]. apply Z.eqb_neq in H2, H3. rewrite H2, H3.
    replace (c <? 32) with false by (symmetry; apply Z.ltb_ge; lia). apply IH. cbn in Hf. lia.
  - cbn [app json_string]. apply escape_spec in Hd. rewrite Hd.
    change (92 =? 34) with false. change (92 =? 92) with true. cbv iota. apply IH. cbn in Hf. lia.
  - cbn [app json_string]. change (92 =? 34) with false. change (92 =? 92) with true.
    change (existsb (Z.eqb 117) _) with false. change (117 =? 117) with true. cbv iota.
    apply is_hex_spec in H1, H2, H3, H4. rewrite H1, H2, H3, H4. cbn [andb]. apply IH. cbn in Hf. lia.
Qed.

Lemma consumed_app n r : consumed (n ++ r) r = n.
Proof. unfold consumed. rewrite app_length, take_app_alt; [done|lia]. Qed.
Lemma quoted_app k r : quoted (k ++ 34 :: r) r = k.
Proof. unfold quoted. rewrite app_length. cbn [length]. rewrite take_app_alt; [done|lia]. Qed.

(** ** Values *)
Lemma json_value_eq fuel s :
  json_value (S fuel) s =
  match skip_ws s with
  | [] => None
  | c :: s' =>
    if c =? 91 then
      match after_char 93 (skip_ws s') with
      | Some r => Some (JArr [], r)
      | None => match json_elems fuel s' with Some (l, r) => Some (JArr l, r) | None => None end
      end
    else if c =? 123 then
      match after_char 125 (skip_ws s') with
      | Some r => Some (JObj [], r)
      | None => match json_members fuel s' with Some (l, r) => Some (JObj l, r) | None => None end
      end
    else if c =? 34 then
      match json_string fuel s' with Some r => Some (JStr (quoted s' r), r) | None => None end
    else if c =? 110 then
      match literal (ascii_bytes "ull") s' with Some r => Some (JNull, r) | None => None end
    else if c =? 116 then
      match literal (ascii_bytes "rue") s' with Some r => Some (JBool true, r) | None => None end
    else if c =? 102 then
      match literal (ascii_bytes "alse") s' with Some r => Some (JBool false, r) | None => None end
    else match json_number (c :: s') with
         | Some r => Some (JNum (consumed (c :: s') r), r) | None => None
         end
  end.
Proof.
  cbn [json_value]. destruct (skip_ws s) as [|c s']; [done|].
  rewrite (match_93 (skip_ws s')), (match_125 (skip_ws s')). done.
Qed.

Lemma json_elems_eq fuel s :
  json_elems (S fuel) s =
  match json_value fuel s with
  | None => None
  | Some (v, r) =>
    match after_char 44 (skip_ws r) with
    | Some r' =>
      match json_elems fuel r' with Some (l, r'') => Some (v :: l, r'') | None => None end
    | None => match after_char 93 (skip_ws r) with Some r' => Some ([v], r') | None => None end
    end
  end.
Proof.
  cbn [json_elems]. destruct (json_value fuel s) as [[v r]|]; [|done].
  by rewrite (match_44_93 (skip_ws r)).
Qed.

Lemma json_members_eq fuel s :
  json_members (S fuel) s =
  match after_char 34 (skip_ws s) with
  | None => None
  | Some s' =>
    match json_string fuel s' with
    | None => None
    | Some r =>
      match after_char 58 (skip_ws r) with
      | None => None
      | Some r1 =>
        match json_value fuel r1 with
        | None => None
        | Some (v, r2) =>
          match after_char 44 (skip_ws r2) with
          | Some r3 =>
            match json_members fuel r3 with
            | Some (l, r4) => Some ((quoted s' r, v) :: l, r4) | None => None
            end
          | None => match after_char 125 (skip_ws r2) with Some r3 => Some ([(quoted s' r, v)], r3) | None => None end
          end
        end
      end
    end
  end.
Proof.
  cbn [json_members]. rewrite (match_34 (skip_ws s)).
  destruct (after_char 34 (skip_ws s)) as [s'|]; [|done].
  destruct (json_string fuel s') as [r|]; [|done]. rewrite (match_58 (skip_ws r)).
  destruct (after_char 58 (skip_ws r)) as [r1|]; [|done].
  destruct (json_value fuel r1) as [[v r2]|]; [|done]. by rewrite (match_44_125 (skip_ws r2)).
Qed.

Lemma after_ws x s r : after_char x (skip_ws s) = Some r -> exists w, ws w /\ s = w ++ x :: r.
Proof.
  intros H. apply after_char_some in H. destruct (skip_ws_split s) as (w & Hw & E).
  exists w. split; [done|]. by rewrite E, H.
Qed.

Lemma sound fuel :
  (forall s v r, json_value fuel s = Some (v, r) ->
     exists w t, ws w /\ value t v /\ s = w ++ t ++ r) /\
  (forall s l r, json_elems fuel s = Some (l, r) -> exists b, elements b l /\ s = b ++ 93 :: r) /\
  (forall s l r, json_members fuel s = Some (l, r) -> exists b, members b l /\ s = b ++ 125 :: r).
Proof.
  induction fuel as [|fuel (IV & IE & IM)]; [done|]. split; [|split].
  - intros s v r. rewrite json_value_eq. destruct (skip_ws_split s) as (w & Hw & Es).
    destruct (skip_ws s) as [|c s'] eqn:Ec; [done|]. rewrite Es. clear Es Ec. intros H. exists w.
    destruct (Z.eqb_spec c 91) as [->|N1].
    { destruct (after_char 93 (skip_ws s')) as [r'|] eqn:E1.
      - injection H as <- <-. apply after_ws in E1 as (w' & Hw' & ->).
        exists (91 :: w' ++ [93]). split; [done|]. split; [by constructor|]. cbn. by rewrite <- app_assoc.
      - destruct (json_elems fuel s') as [[l r']|] eqn:E2; [|done]. injection H as <- <-.
        apply IE in E2 as (b & Hb & ->). exists (91 :: b ++ [93]). split; [done|].
        split; [by constructor|]. cbn. by rewrite <- app_assoc. }
    destruct (Z.eqb_spec c 123) as [->|N2].
    { destruct (after_char 125 (skip_ws s')) as [r'|] eqn:E1.
      - injection H as <- <-. apply after_ws in E1 as (w' & Hw' & ->).
        exists (123 :: w' ++ [125]). split; [done|]. split; [by constructor|]. cbn. by rewrite <- app_assoc.
      - destruct (json_members fuel s') as [[l r']|] eqn:E2; [|done]. injection H as <- <-.
        apply IM in E2 as (b & Hb & ->). exists (123 :: b ++ [125]). split; [done|].
        split; [by constructor|]. cbn. by rewrite <- app_assoc. }
    destruct (Z.eqb_spec c 34) as [->|N3].
    { destruct (json_string fuel s') as [r'|] eqn:E1; [|done]. injection H as <- <-.
      apply json_string_sound in E1 as (cs & Hc & ->). rewrite quoted_app. exists (34 :: cs ++ [34]). split; [done|].
      split; [by constructor|]. cbn. by rewrite <- app_assoc. }
    destruct (Z.eqb_spec c 110) as [->|N4].
    { destruct (literal _ s') as [r'|] eqn:E1; [|done]. injection H as <- <-.
      apply literal_spec in E1 as ->. exists (ascii_bytes "null"). split; [done|].
      split; [constructor|done]. }
    destruct (Z.eqb_spec c 116) as [->|N5].
    { destruct (literal _ s') as [r'|] eqn:E1; [|done]. injection H as <- <-.
      apply literal_spec in E1 as ->. exists (ascii_bytes "true"). split; [done|].
      split; [constructor|done]. }
    destruct (Z.eqb_spec c 102) as [->|N6].
    { destruct (literal _ s') as [r'|] eqn:E1; [|done]. injection H as <- <-.
      apply literal_spec in E1 as ->. exists (ascii_bytes "false"). split; [done|].
      split; [constructor|done]. }
    destruct (json_number (c :: s')) as [r'|] eqn:E1; [|done]. injection H as <- <-.
    apply json_number_sound in E1 as (n & Hn & En). rewrite En, consumed_app. exists n. split; [done|].
    split; [by constructor|]. done.
  - intros s l r. rewrite json_elems_eq. destruct (json_value fuel s) as [[v r1]|] eqn:E1; [|done].
    apply IV in E1 as (w & t & Hw & Ht & ->).
    destruct (after_char 44 (skip_ws r1)) as [r2|] eqn:E2.
    + apply after_ws in E2 as (w2 & Hw2 & ->).
      destruct (json_elems fuel r2) as [[l' r3]|] eqn:E3; [|done]. intros [= <- <-].
      apply IE in E3 as (b & Hb & ->). exists (w ++ t ++ w2 ++ 44 :: b). split; [by constructor|].
      by rewrite <- !app_assoc.
    + destruct (after_char 93 (skip_ws r1)) as [r2|] eqn:E3; [|done]. intros [= <- <-].
      apply after_ws in E3 as (w2 & Hw2 & ->). exists (w ++ t ++ w2). split; [by constructor|].
      by rewrite <- !app_assoc.
  - intros s l r. rewrite json_members_eq. destruct (after_char 34 (skip_ws s)) as [s'|] eqn:E0; [|done].
    apply after_ws in E0 as (w1 & Hw1 & ->).
    destruct (json_string fuel s') as [r0|] eqn:E1; [|done].
    apply json_string_sound in E1 as (k & Hk & ->). rewrite quoted_app.
    destruct (after_char 58 (skip_ws r0)) as [r1|] eqn:E2; [|done].
    apply after_ws in E2 as (w2 & Hw2 & ->).
    destruct (json_value fuel r1) as [[v r2]|] eqn:E3; [|done].
    apply IV in E3 as (w3 & t & Hw3 & Ht & ->).
    destruct (after_char 44 (skip_ws r2)) as [r3|] eqn:E4.
    + apply after_ws in E4 as (w4 & Hw4 & ->).
      destruct (json_members fuel r3) as [[l' r4]|] eqn:E5; [|done]. intros [= <- <-].
      apply IM in E5 as (b & Hb & ->).
      exists (w1 ++ 34 :: k ++ 34 :: w2 ++ 58 :: w3 ++ t ++ w4 ++ 44 :: b).
      split; [by constructor|]. repeat (rewrite <- ?app_assoc; cbn [app]). done.
    + destruct (after_char 125 (skip_ws r2)) as [r3|] eqn:E5; [|done]. intros [= <- <-].
      apply after_ws in E5 as (w4 & Hw4 & ->).
      exists (w1 ++ 34 :: k ++ 34 :: w2 ++ 58 :: w3 ++ t ++ w4).
      split; [by constructor|]. repeat (rewrite <- ?app_assoc; cbn [app]). done.
Qed.

Scheme value_mind := Minimality for value Sort Prop
  with elements_mind := Minimality for elements Sort Prop
  with members_mind := Minimality for members Sort Prop.
Combined Scheme grammar_ind from value_mind, elements_mind, members_mind.

(** A value does not begin with white space or a closing bracket. *)
Lemma value_head t v : value t v -> exists c r, t = c :: r /\ is_ws c = false /\ c <> 93 /\ c <> 125.
Proof.
  destruct 1 as [| | |n Hn|n Hn|w Hw|b l Hb|w Hw|b l Hb];
    try (eexists _, _; split; [reflexivity|]; split; [done|]; split; discriminate).
  destruct (number_head n Hn) as (c & r & -> & Hc). exists c, r. split; [done|].
  unfold dec in Hc. split; [|lia].
  destruct (is_ws c) eqn:W; [|done]. apply is_ws_spec in W. unfold ws_char in W. lia.
Qed.

Lemma elements_first b l : elements b l -> forall r, exists c s,
  skip_ws (b ++ r) = c :: s /\ c <> 93.
Proof.
  intros H r. destruct H as [w1 t w2 v Hw Ht _|w1 t w2 v b l Hw Ht _ _];
    destruct (value_head t v Ht) as (c & s & -> & W & N & _);
    rewrite <- !app_assoc, skip_ws_app by done; cbn [app]; rewrite skip_ws_stop by done; by eexists _, _.
Qed.

Lemma members_first b l : members b l -> forall r, exists s, skip_ws (b ++ r) = 34 :: s.
Proof.
  intros H r. destruct H as [w1 k w2 w3 t w4 v Hw|w1 k w2 w3 t w4 v b l Hw];
    rewrite <- !app_assoc, skip_ws_app by done; by eexists.
Qed.

Lemma after_char_ne x c s : c <> x -> after_char x (c :: s) = None.
Proof. intros H. cbn. apply Z.eqb_neq in H. by rewrite H. Qed.
Lemma after_char_eq x s : after_char x (x :: s) = Some s.
Proof. cbn. by rewrite Z.eqb_refl. Qed.

Lemma complete :
  (forall t v, value t v -> forall fuel w r, (2 * length t <= fuel)%nat -> ws w -> stops r ->
     json_value fuel (w ++ t ++ r) = Some (v, r)) /\
  (forall b l, elements b l -> forall fuel r, (2 * length b + 1 <= fuel)%nat ->
     json_elems fuel (b ++ 93 :: r) = Some (l, r)) /\
  (forall b l, members b l -> forall fuel r, (2 * length b + 1 <= fuel)%nat ->
     json_members fuel (b ++ 125 :: r) = Some (l, r)).
Proof.
  apply grammar_ind.
  - intros [|fuel] w r Hf Hw Hr; [cbn in Hf; lia|]. rewrite json_value_eq, skip_ws_app by done. done.
  - intros [|fuel] w r Hf Hw Hr; [cbn in Hf; lia|]. rewrite json_value_eq, skip_ws_app by done. done.
  - intros [|fuel] w r Hf Hw Hr; [cbn in Hf; lia|]. rewrite json_value_eq, skip_ws_app by done. done.
  - intros n Hn fuel w r Hf Hw Hr. pose proof (json_number_complete n r Hn Hr) as E.
    destruct (number_head n Hn) as (c & n' & -> & Hc). destruct fuel as [|fuel]; [cbn in Hf; lia|].
    rewrite json_value_eq, skip_ws_app by done. cbn [app] in E |- *.
    assert (W : is_ws c = false).
    { destruct (is_ws c) eqn:W; [|done]. apply is_ws_spec in W. unfold ws_char, dec in *. lia. }
    rewrite skip_ws_stop by done. rewrite E, (consumed_app (c :: n') r : consumed (c :: n' ++ r) r = _).
    unfold dec in Hc.
    repeat match goal with |- context [c =? ?k] =>
      replace (c =? k) with false by (symmetry; apply Z.eqb_neq; lia) end.
    done.
  - intros cs Hc [|fuel] w r Hf Hw Hr; [cbn in Hf; lia|].
    rewrite json_value_eq, skip_ws_app by done. cbn [app]. rewrite skip_ws_stop by done.
    change (34 =? 91) with false. change (34 =? 123) with false. change (34 =? 34) with true. cbv iota.
    rewrite <- app_assoc. cbn [app]. rewrite json_string_complete; [by rewrite quoted_app|done|].
    cbn in Hf. rewrite app_length in Hf. cbn in Hf. lia.
  - intros w' Hw' [|fuel] w r Hf Hw Hr; [cbn in Hf; lia|].
    rewrite json_value_eq, skip_ws_app by done. cbn [app]. rewrite skip_ws_stop by done.
    change (91 =? 91) with true. cbv iota. rewrite <- app_assoc, skip_ws_app by done. cbn [app].
    rewrite skip_ws_stop by done. by rewrite after_char_eq.
  - intros b l Hb IH [|fuel] w r Hf Hw Hr; [cbn in Hf; lia|].
    rewrite json_value_eq, skip_ws_app by done. cbn [app]. rewrite skip_ws_stop by done.
    change (91 =? 91) with true. cbv iota. rewrite <- app_assoc. cbn [app].
    destruct (elements_first b l Hb (93 :: r)) as (c & s & E & N). rewrite E.
    rewrite after_char_ne by done. rewrite IH; [done|].
    cbn in Hf. rewrite app_length in Hf. cbn in Hf. lia.
  - intros w' Hw' [|fuel] w r Hf Hw Hr; [cbn in Hf; lia|].
    rewrite json_value_eq, skip_ws_app by done. cbn [app]. rewrite skip_ws_stop by done.
    change (123 =? 91) with false. change (123 =? 123) with true. cbv iota.
    rewrite <- app_assoc, skip_ws_app by done. cbn [app].
    rewrite skip_ws_stop by done. by rewrite after_char_eq.
  - intros b l Hb IH [|fuel] w r Hf Hw Hr; [cbn in Hf; lia|].
    rewrite json_value_eq, skip_ws_app by done. cbn [app]. rewrite skip_ws_stop by done.
    change (123 =? 91) with false. change (123 =? 123) with true. cbv iota.
    rewrite <- app_assoc. cbn [app].
    destruct (members_first b l Hb (125 :: r)) as (s & E). rewrite E.
    rewrite after_char_ne by done. rewrite IH; [done|].
    cbn in Hf. rewrite app_length in Hf. cbn in Hf. lia.
  - intros w1 t w2 v Hw1 Ht IH Hw2 [|fuel] r Hf; [lia|]. rewrite !app_length in Hf.
    rewrite json_elems_eq, <- !app_assoc. rewrite IH; [|lia|done|].
    2: { apply stops_ws; [done|]. apply stops_cons. unfold stop_char. tauto. }
    rewrite skip_ws_app by done. rewrite skip_ws_stop by done.
    by rewrite after_char_ne, after_char_eq by done.
  - intros w1 t w2 v b l Hw1 Ht IH Hw2 Hb IHb [|fuel] r Hf; [lia|].
    rewrite !app_length in Hf. cbn in Hf.
    rewrite json_elems_eq, <- !app_assoc. cbn [app]. rewrite IH; [|lia|done|].
    2: { apply stops_ws; [done|]. apply stops_cons. unfold stop_char. tauto. }
    rewrite skip_ws_app by done. rewrite skip_ws_stop by done. rewrite after_char_eq.
    rewrite IHb; [done|lia].
  - intros w1 k w2 w3 t w4 v Hw1 Hk Hw2 Hw3 Ht IH Hw4 [|fuel] r Hf; [lia|].
    repeat (rewrite ?app_length in Hf; cbn [length] in Hf).
    rewrite json_members_eq. repeat (rewrite <- !app_assoc; cbn [app]).
    rewrite skip_ws_app by done. rewrite skip_ws_stop by done. rewrite after_char_eq.
    rewrite json_string_complete by (done || lia). rewrite quoted_app, skip_ws_app by done.
    rewrite skip_ws_stop by done. rewrite after_char_eq. rewrite IH; [|lia|done|].
    2: { apply stops_ws; [done|]. apply stops_cons. unfold stop_char. tauto. }
    rewrite skip_ws_app by done. rewrite skip_ws_stop by done.
    by rewrite after_char_ne, after_char_eq by done.
  - intros w1 k w2 w3 t w4 v b l Hw1 Hk Hw2 Hw3 Ht IH Hw4 Hb IHb [|fuel] r Hf; [lia|].
    repeat (rewrite ?app_length in Hf; cbn [length] in Hf).
    rewrite json_members_eq. repeat (rewrite <- !app_assoc; cbn [app]).
    rewrite skip_ws_app by done. rewrite skip_ws_stop by done. rewrite after_char_eq.
    rewrite json_string_complete by (done || lia). rewrite quoted_app, skip_ws_app by done.
    rewrite skip_ws_stop by done. rewrite after_char_eq. rewrite IH; [|lia|done|].
    2: { apply stops_ws; [done|]. apply stops_cons. unfold stop_char. tauto. }
    rewrite skip_ws_app by done. rewrite skip_ws_stop by done. rewrite after_char_eq.
    rewrite IHb; [done|lia].
Qed.

Lemma skip_ws_nil s : skip_ws s = [] <-> ws s.
Proof.
  split.
  - intros H. destruct (skip_ws_split s) as (w & Hw & E). rewrite H, app_nil_r in E. by subst.
  - intros H. rewrite <- (app_nil_r s). by rewrite skip_ws_app.
Qed.

Lemma fold_max_le {A} (f : A -> Z) l n : 0 <= n -> foldr Z.max 0 (map f l) <= n <-> Forall (fun x => f x <= n) l.
Proof.
  intros Hn. induction l as [|x l IH]; cbn [map foldr]; [split; [constructor|done]|].
  rewrite Forall_cons, <- IH. lia.
Qed.
Lemma fold_max_pos {A} (f : A -> Z) l : 0 <= foldr Z.max 0 (map f l).
Proof. induction l as [|x l IH]; cbn [map foldr]; lia. Qed.

Fixpoint json_depth_nested (v : json) : forall n, 0 <= n -> json_depth v <= n <-> nested n v.
Proof.
  intros n Hn. destruct v as [| | | |l|l]; cbn [json_depth]; try (split; [constructor|lia]).
  - pose proof (fold_max_pos json_depth l) as P. split.
    + intros H. assert (0 <= n - 1) by lia. constructor; [lia|].
      assert (F : foldr Z.max 0 (map json_depth l) <= n - 1) by lia. clear H P.
      induction l as [|x l IH]; cbn [map foldr] in F; [constructor|].
      constructor; [apply json_depth_nested; lia|apply IH; lia].
    + intros H. inversion H as [| | | |? ? H1 F|]; subst. clear H P.
      assert (foldr Z.max 0 (map json_depth l) <= n - 1); [|lia].
      induction l as [|x l IH]; cbn [map foldr]; [lia|]. apply Forall_cons in F as [Fx F].
      apply json_depth_nested in Fx; [|lia]. specialize (IH F). lia.
  - pose proof (fold_max_pos (fun m : list byte * json => json_depth (snd m)) l) as P. split.
    + intros H. assert (0 <= n - 1) by lia. constructor; [lia|].
      assert (F : foldr Z.max 0 (map (fun m : list byte * json => json_depth (snd m)) l) <= n - 1) by lia. clear H P.
      induction l as [|[k x] l IH]; cbn [map foldr snd] in F; [constructor|].
      constructor; [cbn [snd]; apply json_depth_nested; lia|apply IH; lia].
    + intros H. inversion H as [| | | | |? ? H1 F]; subst. clear H P.
      assert (foldr Z.max 0 (map (fun m : list byte * json => json_depth (snd m)) l) <= n - 1); [|lia].
      induction l as [|[k x] l IH]; cbn [map foldr snd]; [lia|]. apply Forall_cons in F as [Fx F].
      cbn [snd] in Fx. apply json_depth_nested in Fx; [|lia]. specialize (IH F). lia.
Qed.
Lemma depth_ok v : (json_depth v <=? max_nesting) = true <-> nested 10000 v.
Proof. rewrite Z.leb_le. by apply json_depth_nested. Qed.
Lemma depth_over v : (json_depth v <=? max_nesting) = false <-> ~ nested 10000 v.
Proof. rewrite <- depth_ok. by destruct (json_depth v <=? max_nesting). Qed.

Lemma json_text_value s v : json_text s v ->
  exists r, json_value (2 * length s + 2) s = Some (v, r) /\ skip_ws r = [].
Proof.
  intros (w1 & t & w2 & H1 & Ht & H2 & ->). exists w2. split; [|by apply skip_ws_nil].
  apply (proj1 complete t v Ht); [rewrite !app_length; lia|done|].
  rewrite <- (app_nil_r w2). apply stops_ws; [done|]. apply stops_nil.
Qed.
Lemma json_text_det s v w : json_text s v -> json_text s w -> v = w.
Proof.
  intros (r & E & _)%json_text_value (r' & E' & _)%json_text_value. rewrite E in E'. by injection E'.
Qed.

Lemma json_parse_grammar s v : json_parse s = Some v <-> json_text s v /\ nested 10000 v.
Proof.
  unfold json_parse. split.
  - destruct (json_value _ s) as [[v' r]|] eqn:E; [|done].
    apply (proj1 (sound _)) in E as (w & t & Hw & Ht & ->).
    destruct (json_depth v' <=? max_nesting) eqn:Ed; [|done].
    destruct (skip_ws r) eqn:Er; [|done]. intros [= ->]. apply skip_ws_nil in Er.
    split; [exists w, t, r; done|by apply depth_ok].
  - intros [(w1 & t & w2 & H1 & Ht & H2 & ->) Hd].
    rewrite (proj1 complete t v Ht).
    + rewrite (proj2 (depth_ok v) Hd). by rewrite (proj2 (skip_ws_nil w2) H2).
    + rewrite !app_length. lia.
    + done.
    + rewrite <- (app_nil_r w2). apply stops_ws; [done|]. apply stops_nil.
Qed.
