(** Where the settings come from: C104. *)
From Verif Require Import Base Naming Config Settings SpecNames NamesFacts.

(** The value of a variable: from the environment if it is set there, else from the
    file, else none. *)
Definition setting (env dotenv : environ) (name : list byte) (value : option (list byte)) : Prop :=
  (env !! name = value /\ value <> None) \/ (env !! name = None /\ dotenv !! name = value).

(** The directory that a value stands for: unset and empty mean the current one; a
    directory ends in a slash. *)
Definition dir_setting (value : option (list byte)) (base : list byte) : Prop :=
  match value with
  | None | Some [] => base = []
  | Some dir => (exists d, dir = d ++ [47] /\ base = dir) \/ ((forall d, dir <> d ++ [47]) /\ base = dir ++ [47])
  end.
Definition host_setting (value : option (list byte)) (host : list byte) : Prop :=
  match value with None | Some [] => host = ascii_bytes "localhost" | Some h => host = h end.

(** A number the port can be: a non-negative value of int, in decimal. *)
Definition usable_port (s : list byte) (p : Z) : Prop := writes_int s p /\ 0 <= p <= 2 ^ 63 - 1.
Definition port_setting (value : option (list byte)) (port : Z) : Prop :=
  match value with
  | None => port = 8080
  | Some s => usable_port s port \/ ((forall p, ~ usable_port s p) /\ port = 8080)
  end.

(** The contract: environment first, then the file .env if there is one, then the
    defaults. *)
Definition settings_come_in_order : Prop :=
  forall env dotenv, exists st, main_settings env dotenv = Ret st /\
  forall path host port, let file := default ∅ dotenv in
    setting env file (ascii_bytes "REC_PATH") path -> setting env file (ascii_bytes "REC_HOST") host ->
    setting env file (ascii_bytes "REC_PORT") port ->
    dir_setting path (st_base st) /\ host_setting host (cf_host (st_config st)) /\
    port_setting port (cf_port (st_config st)).

(** Without a readable .env there is no server, whatever the environment. *)
Theorem C104_no_file_no_start : forall env st, main_settings env None <> Ret st.
Proof. done. Qed.
Print Assumptions C104_no_file_no_start.

Theorem C104_settings_come_in_order_refuted : ~ settings_come_in_order.
Proof. intros H. destruct (H ∅ None) as (st & E & _). by apply C104_no_file_no_start in E. Qed.
Print Assumptions C104_settings_come_in_order_refuted.

Lemma load_lookup (env vars : environ) name :
  map_fold (fun k v (e : environ) => match e !! k with Some _ => e | None => <[k := v]> e end) env vars !! name =
  match env !! name with Some x => Some x | None => vars !! name end.
Proof.
  apply (map_fold_ind (fun e vs => e !! name = match env !! name with Some x => Some x | None => vs !! name end)).
  - rewrite lookup_empty. by destruct (env !! name).
  - intros k v vs e Hk IH. destruct (decide (k = name)) as [-> | Hne].
    + rewrite Hk in IH. rewrite lookup_insert. destruct (env !! name) eqn:Hv; rewrite IH; [done|apply lookup_insert].
    + rewrite (lookup_insert_ne vs) by done. destruct (e !! k); [done|]. by rewrite lookup_insert_ne.
Qed.

Lemma load_setting env vars name value : setting env vars name value ->
  map_fold (fun k v (e : environ) => match e !! k with Some _ => e | None => <[k := v]> e end) env vars !! name = value.
Proof.
  rewrite load_lookup. intros [[-> H] | [-> H]]; [by destruct value|done].
Qed.

Lemma base_dir value : dir_setting value (base_path (default [] value)).
Proof.
  destruct value as [[|c dir]|]; [done| |done]. cbn [default dir_setting from_option id].
  set (s := c :: dir). change (match s with [] => _ | _ => ?r end) with r.
  unfold base_path. destruct (last s) as [z|] eqn:E; [|by apply last_None in E].
  apply last_Some in E as (d & E). destruct (Z.eqb_spec z 47) as [-> | Hne].
  - left. by exists d.
  - right. split; [|done]. intros d' E'. rewrite E in E'. apply app_inj_tail in E' as [_ E']. done.
Qed.

(** With a readable .env the contract holds. *)
Theorem C104_settings_partial :
  forall env dotenv, exists st, main_settings env (Some dotenv) = Ret st /\
  forall path host port,
    setting env dotenv (ascii_bytes "REC_PATH") path -> setting env dotenv (ascii_bytes "REC_HOST") host ->
    setting env dotenv (ascii_bytes "REC_PORT") port ->
    dir_setting path (st_base st) /\ host_setting host (cf_host (st_config st)) /\
    port_setting port (cf_port (st_config st)).
Proof.
  intros env dotenv. unfold main_settings, load_dotenv. eexists. split; [done|].
  intros path host port Hp Hh Ho. cbn [st_base st_config]. unfold getenv.
  rewrite (load_setting _ _ _ _ Hp), (load_setting _ _ _ _ Hh), (load_setting _ _ _ _ Ho).
  split; [apply base_dir|]. split.
  - by destruct host as [[|c h]|].
  - unfold new_config_from_env. cbn [cf_port]. destruct port as [s|]; [|done]. cbn [default from_option id port_setting].
    destruct (atoi s) as [p|] eqn:E.
    + apply atoi_correct in E as [W T]. destruct T as [T1 T2]. destruct (Z.ltb_spec p 0).
      * right. split; [|done]. intros q [Wq Hq].
        assert (atoi s = Some q).
        { apply atoi_correct. split; [done|]. split; [change (tmin I64) with (- 2 ^ 63)|change (tmax I64) with (2 ^ 63 - 1)]; lia. }
        assert (atoi s = Some p) by (by apply atoi_correct). assert (p = q) by congruence. lia.
      * left. split; [done|]. change (tmax I64) with (2 ^ 63 - 1) in T2. lia.
    + right. split; [|done]. intros q [Wq Hq].
      assert (atoi s = Some q); [|congruence].
      apply atoi_correct. split; [done|]. split; [change (tmin I64) with (- 2 ^ 63)|change (tmax I64) with (2 ^ 63 - 1)]; lia.
Qed.
Print Assumptions C104_settings_partial.

(** So a variable of the environment hides the one of the file, also if it is empty. *)
Theorem C104_environment_wins :
  forall env d1 d2 st1 st2, is_Some (env !! ascii_bytes "REC_PATH") -> is_Some (env !! ascii_bytes "REC_HOST") ->
  is_Some (env !! ascii_bytes "REC_PORT") ->
  main_settings env (Some d1) = Ret st1 -> main_settings env (Some d2) = Ret st2 -> st1 = st2.
Proof.
  intros env d1 d2 st1 st2 [p Hp] [h Hh] [o Ho]. unfold main_settings, load_dotenv, getenv.
  rewrite !load_lookup, Hp, Hh, Ho. congruence.
Qed.
Print Assumptions C104_environment_wins.

(** No other variable matters. *)
Theorem C104_only_three_variables :
  forall env1 env2 d1 d2,
  (forall n, n ∈ map ascii_bytes ["REC_PATH"; "REC_HOST"; "REC_PORT"]%string -> env1 !! n = env2 !! n /\ d1 !! n = d2 !! n) ->
  main_settings env1 (Some d1) = main_settings env2 (Some d2).
Proof.
  intros env1 env2 d1 d2 H. unfold main_settings, load_dotenv, getenv. rewrite !load_lookup.
  destruct (H (ascii_bytes "REC_PATH")) as [-> ->]; [left|].
  destruct (H (ascii_bytes "REC_HOST")) as [-> ->]; [right; left|].
  destruct (H (ascii_bytes "REC_PORT")) as [-> ->]; [right; right; left|]. done.
Qed.
Print Assumptions C104_only_three_variables.

(** A case: the host from the environment, the port from the file (example.env), a
    variable that is set but empty. *)
Example C104_case :
  let env := <[ascii_bytes "REC_HOST" := ascii_bytes "0.0.0.0"]> {[ ascii_bytes "REC_PATH" := [] ]} : environ in
  let file := <[ascii_bytes "REC_HOST" := ascii_bytes "localhost"]>
    (<[ascii_bytes "REC_PORT" := ascii_bytes "3000"]> {[ ascii_bytes "REC_PATH" := ascii_bytes "data" ]}) : environ in
  main_settings env (Some file) = Ret (Settings [] (Config (ascii_bytes "0.0.0.0") 3000)) /\
  main_settings ∅ (Some file) = Ret (Settings (ascii_bytes "data/") (Config (ascii_bytes "localhost") 3000)).
Proof. split; vm_compute; reflexivity. Qed.
