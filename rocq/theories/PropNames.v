(** Names, paths and configuration: C42, C43, C51. *)
From Flocq Require Import IEEE754.BinarySingleNaN.
From Verif Require Import Base Similarity Naming Config Service SpecNames NamesFacts ServiceFacts ServiceConcFacts.

(** * C42 *)
Theorem C42_name_language : forall s,
  (name_ok s -> parse_namespace_name s = Ret s) /\
  (~ name_ok s -> exists e, parse_namespace_name s = Err e).
Proof.
  intros s. split; [apply parse_name_ok|].
  intros H. rewrite (parse_name_bad s H). by eexists.
Qed.
Print Assumptions C42_name_language.

Theorem C42_path_safe : forall s n, parse_namespace_name s = Ret n ->
  n = s /\ (forall b, b ∈ n -> b <> 47 /\ b <> 46 /\ b <> 0) /\
  forall env k, lies_in (base_path env) (ns_file_path (base_path env) n k).
Proof.
  intros s n H. apply parse_name_ret in H as [-> H]. split; [done|].
  destruct (name_ok_safe s H) as (H1 & H2 & H3 & H4). split.
  - intros b Hb. split; [|split]; by intros ->.
  - intros env k. split; [apply base_path_dir|]. exists (s ++ ns_file_ext k).
    split; [by apply file_name_ext|done].
Qed.
Print Assumptions C42_path_safe.

Example C42_case :
  parse_namespace_name (ascii_bytes "My_ns-1") = Ret (ascii_bytes "My_ns-1") /\
  (exists e, parse_namespace_name (ascii_bytes "a" ++ [10]) = Err e) /\
  (exists e, parse_namespace_name (ascii_bytes "../a") = Err e) /\
  (exists e, parse_namespace_name (ascii_bytes "1a") = Err e) /\
  (exists e, parse_namespace_name [] = Err e) /\
  ns_file_path (base_path (ascii_bytes "/data")) (ascii_bytes "a") DeltaFile =
    ascii_bytes "/data/a.delta".
Proof. repeat (split; [first [reflexivity|by eexists]|]). reflexivity. Qed.

(** * C43 *)

(** The files a namespace created through the service uses. *)
Definition created_file (d : create_request) (k : ns_file) (p : list byte) : Prop :=
  exists x, forge_namespace d = Ret x /\ p = ns_file_path (ln_base x) (ln_name x) k.

(** In full: the files of different namespaces are different, also from
    namespaces.json, and lie in the directory REC_PATH. *)
Theorem C43_under_rec_path_refuted :
  ~ (forall env d k p, name_ok (cr_name d) -> created_file d k p -> lies_in (base_path env) p).
Proof.
  intros H.
  assert (L : lies_in (base_path (ascii_bytes "/data")) (ascii_bytes "a.delta")).
  { apply (H _ (CreateRequest (ascii_bytes "a") type_like 0 (B754_zero false)) DeltaFile).
    - exists 97, []. split; [done|]. split; [left; done|constructor].
    - eexists. split; reflexivity. }
  destruct L as (_ & c & _ & E). discriminate E.
Qed.
Print Assumptions C43_under_rec_path_refuted.

(** REC_PATH has no influence at all: the files are in the current directory. *)
Theorem C43_rec_path_ignored : forall d k p,
  name_ok (cr_name d) -> created_file d k p ->
  p = cr_name d ++ ns_file_ext k /\ lies_in [] p.
Proof.
  intros d k p H (x & Hx & ->). apply forge_ret in Hx as ->.
  split; [done|]. split; [by left|]. exists (cr_name d ++ ns_file_ext k).
  split; [by apply file_name_ext|done].
Qed.
Print Assumptions C43_rec_path_ignored.

Theorem C43_files_distinct_partial : forall d1 d2 k1 k2 p1 p2,
  name_ok (cr_name d1) -> name_ok (cr_name d2) ->
  created_file d1 k1 p1 -> created_file d2 k2 p2 ->
  (cr_name d1 <> cr_name d2 \/ k1 <> k2 -> different_entries p1 p2) /\
  forall env, different_entries p1 (json_path (base_path env)).
Proof.
  intros d1 d2 k1 k2 p1 p2 H1 H2 C1 C2.
  apply C43_rec_path_ignored in C1 as [-> _]; [|done].
  apply C43_rec_path_ignored in C2 as [-> _]; [|done].
  destruct (name_ok_safe _ H1) as (_ & D1 & _). destruct (name_ok_safe _ H2) as (_ & D2 & _).
  pose proof (file_name_ext _ k1 H1) as (_ & S1 & _).
  pose proof (file_name_ext _ k2 H2) as (_ & S2 & _). split.
  - intros Hne. apply (different_by_component [] _ [] _ S1 S2); [by left|by left|].
    intros E. apply ext_inj in E as [E1 E2]; [|done|done]. by destruct Hne.
  - intros env. apply (different_by_component [] _ (base_path env) _); [done| |by left|apply base_path_dir|].
    + by apply (bool_decide_unpack _).
    + by apply ext_not_json.
Qed.
Print Assumptions C43_files_distinct_partial.

(** A case: names that share a prefix, and a name that imitates the list's. *)
Example C43_case :
  let d n := CreateRequest (ascii_bytes n) type_like 0 (B754_zero false) in
  name_ok (cr_name (d "namespaces"%string)) /\ name_ok (cr_name (d "a-b"%string)) /\
  created_file (d "namespaces"%string) RecdbFile (ascii_bytes "namespaces.recdb") /\
  created_file (d "a-b"%string) RecdbFile (ascii_bytes "a-b.recdb").
Proof.
  split; [|split; [|split]].
  - apply name_regex_ok. reflexivity.
  - apply name_regex_ok. reflexivity.
  - by eexists.
  - by eexists.
Qed.

(** * C51 *)

(** In full: the host and a valid port are taken from the environment when given,
    the defaults otherwise; the address is usable (a TCP port). *)
Theorem C51_valid_port_refuted :
  ~ (forall rh rp defaults,
       match defaults with Some d => 0 <= cf_port d <= 65535 | None => True end ->
       0 <= cf_port (new_config_from_env rh rp defaults) <= 65535).
Proof.
  intros H. specialize (H [] (ascii_bytes "70000") None I).
  change (cf_port (new_config_from_env [] (ascii_bytes "70000") None)) with 70000 in H. lia.
Qed.
Print Assumptions C51_valid_port_refuted.

(** The port is a decimal number from the environment exactly when it is a
    non-negative value of int (65536 and above included). *)
Theorem C51_config_partial : forall rh rp defaults,
  let c := new_config_from_env rh rp defaults in
  let dh := match defaults with Some d => cf_host d | None => ascii_bytes "localhost" end in
  let dp := match defaults with Some d => cf_port d | None => 8080 end in
  (rh <> [] -> cf_host c = rh) /\ (rh = [] -> cf_host c = dh) /\
  (forall p, writes_int rp p -> 0 <= p -> in_type I64 p -> cf_port c = p) /\
  ((forall p, writes_int rp p -> 0 <= p -> ~ in_type I64 p) -> cf_port c = dp).
Proof.
  intros rh rp defaults c dh dp. split; [|split; [|split]].
  - intros H. unfold c, new_config_from_env. cbn [cf_host]. by destruct rh.
  - intros ->. reflexivity.
  - intros p Hp H0 Ht. unfold c, new_config_from_env. cbn [cf_port].
    rewrite (proj2 (atoi_correct rp p) (conj Hp Ht)).
    destruct (Z.ltb_spec p 0); [lia|done].
  - intros H. unfold c, new_config_from_env. cbn [cf_port].
    destruct (atoi rp) as [p|] eqn:E; [|done].
    destruct (Z.ltb_spec p 0); [done|].
    apply atoi_correct in E as [E1 E2]. by destruct (H p E1).
Qed.
Print Assumptions C51_config_partial.

(** A valid TCP port in the environment is used; the result is a valid port unless
    a larger number was given. *)
Theorem C51_tcp_port_partial : forall rh rp defaults,
  let c := new_config_from_env rh rp defaults in
  (forall p, writes_int rp p -> 0 <= p <= 65535 -> cf_port c = p) /\
  ((forall p, writes_int rp p -> p <= 65535) ->
   match defaults with Some d => 0 <= cf_port d <= 65535 | None => True end ->
   0 <= cf_port c <= 65535).
Proof.
  intros rh rp defaults c.
  destruct (C51_config_partial rh rp defaults) as (_ & _ & H1 & H2). split.
  - intros p Hp Hr. apply (H1 p Hp); [lia|].
    split; [change (tmin I64) with (-2^63)|change (tmax I64) with (2^63-1)]; lia.
  - intros Hle Hd. unfold c. destruct (atoi rp) as [p|] eqn:E.
    + destruct (proj1 (atoi_correct rp p) E) as [W T]. specialize (Hle p W).
      destruct (Z.ltb_spec p 0).
      * unfold new_config_from_env. cbn [cf_port]. rewrite E.
        rewrite (proj2 (Z.ltb_lt p 0)) by done. destruct defaults; [done|].
        unfold default_port. lia.
      * rewrite (H1 p W) by done. lia.
    + unfold new_config_from_env. cbn [cf_port]. rewrite E.
      destruct defaults; [done|]. unfold default_port. lia.
Qed.
Print Assumptions C51_tcp_port_partial.

(** GetHostPort is host, colon, port in decimal. *)
Theorem C51_host_port : forall c, in_type I64 (cf_port c) ->
  exists digits, canonical_int digits (cf_port c) /\
    get_host_port c = cf_host c ++ [58] ++ digits.
Proof.
  intros c H. exists (itoa (cf_port c)). split; [by apply itoa_canonical|done].
Qed.
Print Assumptions C51_host_port.

Example C51_case :
  new_config_from_env (ascii_bytes "0.0.0.0") (ascii_bytes "+090") None =
    Config (ascii_bytes "0.0.0.0") 90 /\
  new_config_from_env [] (ascii_bytes "80a") None = Config (ascii_bytes "localhost") 8080 /\
  new_config_from_env [] (ascii_bytes "-1") (Some (Config (ascii_bytes "h") 7)) =
    Config (ascii_bytes "h") 7 /\
  get_host_port (Config (ascii_bytes "h") 65535) = ascii_bytes "h:65535" /\
  writes_int (ascii_bytes "+090") 90.
Proof.
  repeat (split; [reflexivity|]). exists [43], [0; 9; 0]. split; [done|].
  split; [repeat constructor; lia|]. split; [done|]. left. split; [by right|done].
Qed.
