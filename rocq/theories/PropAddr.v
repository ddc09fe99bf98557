(** Property C134: the address the shard listens on. *)
From Verif Require Import Base Config Addr SpecNames NamesFacts AddrFacts.

(** * C134
    Full claim: the shard listens on the host named by REC_HOST.  False: an IPv6 address
    is followed by a colon and the port like any other host, and such a text cannot be
    taken apart again.  Listen fails for every host with a colon that does not start with
    a bracket. *)
Theorem C134_ipv6_refuted :
  forall rec_host rec_port, 58 ∈ rec_host -> head rec_host <> Some 91 ->
  listen_on rec_host rec_port None = Err (EMsg "too many colons in address").
Proof.
  intros rh rp H1 H2. unfold listen_on, get_host_port. destruct rh as [|b rh]; [by apply elem_of_nil in H1|].
  assert (Hp : in_type I64 (cf_port (new_config_from_env (b :: rh) rp None))).
  { unfold new_config_from_env. cbn [cf_port]. destruct (atoi rp) as [p|] eqn:E; [|done]. destruct (p <? 0); [done|].
    by apply atoi_correct in E as [_ E]. }
  cbn [new_config_from_env cf_host]. change (ascii_bytes ":" ++ ?x) with (58 :: x).
  apply split_colons; [done|done|]. by apply itoa_free.
Qed.
Print Assumptions C134_ipv6_refuted.

(** What is true: a host without colons and brackets is listened on, with the port in
    decimal; so is an IPv6 address that was given in brackets. *)
Theorem C134_plain_partial :
  forall host port, in_type I64 port -> (forall b, b ∈ host -> b <> 58 /\ b <> 91 /\ b <> 93) ->
  exists digits, canonical_int digits port /\ split_host_port (get_host_port (Config host port)) = Ret (host, digits).
Proof.
  intros h p Hp Hh. exists (itoa p). split; [by apply itoa_canonical|]. destruct (itoa_free p Hp) as (I1 & I2 & I3).
  unfold get_host_port. cbn [cf_host cf_port]. change (ascii_bytes ":" ++ itoa p) with (58 :: itoa p).
  apply split_plain; try done; intros H; apply Hh in H; tauto.
Qed.
Print Assumptions C134_plain_partial.

Theorem C134_bracketed_partial :
  forall host port, in_type I64 port -> (forall b, b ∈ host -> b <> 91 /\ b <> 93) ->
  exists digits, canonical_int digits port /\
    split_host_port (get_host_port (Config (ascii_bytes "[" ++ host ++ ascii_bytes "]") port)) = Ret (host, digits).
Proof.
  intros h p Hp Hh. exists (itoa p). split; [by apply itoa_canonical|]. destruct (itoa_free p Hp) as (I1 & I2 & I3).
  unfold get_host_port. cbn [cf_host cf_port].
  change ((ascii_bytes "[" ++ h ++ ascii_bytes "]") ++ ascii_bytes ":" ++ itoa p) with ((91 :: h ++ [93]) ++ 58 :: itoa p).
  apply split_bracketed; try done; intros H; apply Hh in H; tauto.
Qed.
Print Assumptions C134_bracketed_partial.

(** And nothing else is. *)
Theorem C134_only_partial :
  forall host port x, in_type I64 port -> split_host_port (get_host_port (Config host port)) = Ret x ->
  (forall b, b ∈ host -> b <> 58 /\ b <> 91 /\ b <> 93) \/
  (exists h, host = ascii_bytes "[" ++ h ++ ascii_bytes "]" /\ forall b, b ∈ h -> b <> 91 /\ b <> 93).
Proof.
  intros h p x Hp. destruct (itoa_free p Hp) as (I1 & I2 & I3).
  unfold get_host_port. cbn [cf_host cf_port]. change (ascii_bytes ":" ++ itoa p) with (58 :: itoa p).
  intros H. destruct (split_inv _ _ _ I1 I2 I3 H) as [(H1 & H2 & H3)|(g & -> & H1 & H2)].
  - left. intros b Hb. split; [|split]; intros ->; done.
  - right. exists g. split; [done|]. intros b Hb. split; intros ->; done.
Qed.
Print Assumptions C134_only_partial.

(** "::1" cannot be listened on, "[::1]" can. *)
Example C134_case :
  listen_on (ascii_bytes "::1") (ascii_bytes "8081") None = Err (EMsg "too many colons in address") /\
  (58 ∈ ascii_bytes "::1" /\ head (ascii_bytes "::1") <> Some 91) /\
  listen_on (ascii_bytes "[::1]") (ascii_bytes "8081") None = Ret (ascii_bytes "::1", ascii_bytes "8081") /\
  listen_on (ascii_bytes "10.0.0.1") [] None = Ret (ascii_bytes "10.0.0.1", ascii_bytes "8080") /\
  listen_on [] [] None = Ret (ascii_bytes "localhost", ascii_bytes "8080") /\
  listen_on (ascii_bytes "[::1") [] None = Err (EMsg "missing ']' in address") /\
  listen_on (ascii_bytes "a]") [] None = Err (EMsg "unexpected ']' in address").
Proof. split; [done|]. split; [split; [by left|done]|]. by repeat split. Qed.
