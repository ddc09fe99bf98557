(** Specification of a random-access byte file, independent of the model: the
    content is a function from positions to bytes. *)
From Verif Require Import Base.

Record ideal := Ideal {
  i_at : Z -> byte;      (* meaningful on [0, i_len) *)
  i_len : Z;
  i_pos : Z;
  i_closed : bool
}.

Inductive icall :=
| IRead (n : nat) | IWrite (b : list byte) | ISeek (offset whence : Z)
| ITruncate (size : Z) | IClose.

(** Bytes, number and error the caller gets. *)
Definition ires : Type := list byte * Z * option err.

(** [istep c s s' r]: call [c] in state [s] leads to [s'] and returns [r]. *)
Inductive istep : icall -> ideal -> ideal -> ires -> Prop :=
| istep_closed c s :
    i_closed s = true -> c <> IClose -> istep c s s ([], 0, Some EClosed)
| istep_read_eof n s :
    i_closed s = false -> i_pos s = i_len s -> istep (IRead n) s s ([], 0, Some EEOF)
| istep_read n s bs :
    i_closed s = false -> i_pos s < i_len s ->
    Z.of_nat (length bs) = Z.min (Z.of_nat n) (i_len s - i_pos s) ->
    (forall i : nat, (i < length bs)%nat -> bs !! i = Some (i_at s (i_pos s + Z.of_nat i))) ->
    istep (IRead n) s (Ideal (i_at s) (i_len s) (i_pos s + Z.of_nat (length bs)) false)
      (bs, Z.of_nat (length bs), None)
| istep_write b s at' :
    i_closed s = false ->
    (forall i : nat, (i < length b)%nat -> b !! i = Some (at' (i_pos s + Z.of_nat i))) ->
    (forall p, p < i_pos s \/ i_pos s + Z.of_nat (length b) <= p -> at' p = i_at s p) ->
    istep (IWrite b) s
      (Ideal at' (Z.max (i_len s) (i_pos s + Z.of_nat (length b)))
         (i_pos s + Z.of_nat (length b)) false)
      ([], Z.of_nat (length b), None)
| istep_seek o w base s :
    i_closed s = false ->
    (w = 0 /\ base = 0 \/ w = 1 /\ base = i_pos s \/ w = 2 /\ base = i_len s) ->
    0 <= base + o <= i_len s ->
    istep (ISeek o w) s (Ideal (i_at s) (i_len s) (base + o) false) ([], base + o, None)
| istep_seek_bad o w s :
    i_closed s = false ->
    (forall base, w = 0 /\ base = 0 \/ w = 1 /\ base = i_pos s \/ w = 2 /\ base = i_len s ->
       ~ 0 <= base + o <= i_len s) ->
    istep (ISeek o w) s s ([], 0, Some EInvalid)
| istep_truncate n s at' :
    i_closed s = false -> 0 <= n ->
    (forall p, 0 <= p < Z.min n (i_len s) -> at' p = i_at s p) ->
    (forall p, i_len s <= p < n -> at' p = 0) ->
    istep (ITruncate n) s (Ideal at' n (Z.min (i_pos s) n) false) ([], 0, None)
| istep_truncate_bad n s :
    i_closed s = false -> n < 0 -> istep (ITruncate n) s s ([], 0, Some EInvalid)
| istep_close s :
    istep IClose s (Ideal (i_at s) (i_len s) (i_pos s) true) ([], 0, None).

Inductive iruns : list icall -> ideal -> ideal -> list ires -> Prop :=
| iruns_nil s : iruns [] s s []
| iruns_cons c cs s s' s'' r rs :
    istep c s s' r -> iruns cs s' s'' rs -> iruns (c :: cs) s s'' (r :: rs).

(** A writer that works: every Write takes all its bytes, in order ([out]: the
    bytes taken so far). *)
Definition working_writer {W} (wr : list byte -> W -> W * (nat * option err))
    (out : W -> list byte) : Prop :=
  forall bs w, exists w', wr bs w = (w', (length bs, None)) /\ out w' = out w ++ bs.

(** A reader that delivers the stream [rest]: each Read with room for n > 0 bytes
    gives between 1 and n of them as it pleases, and EOF once there is none left. *)
Definition stream_reader {R} (rd : nat -> R -> R * (list byte * option err))
    (rest : R -> list byte) : Prop :=
  forall n r, (0 < n)%nat ->
  (rest r = [] /\ exists r', rd n r = (r', ([], Some EEOF)) /\ rest r' = []) \/
  (exists r' bs, rd n r = (r', (bs, None)) /\ (0 < length bs <= n)%nat /\
     rest r = bs ++ rest r').

(** The same, but EOF may also come together with the last bytes, which the
    documentation of io.Reader allows. *)
Definition any_reader {R} (rd : nat -> R -> R * (list byte * option err))
    (rest : R -> list byte) : Prop :=
  forall n r, (0 < n)%nat ->
  (rest r = [] /\ exists r', rd n r = (r', ([], Some EEOF)) /\ rest r' = []) \/
  (exists r' bs e, rd n r = (r', (bs, e)) /\ (0 < length bs <= n)%nat /\
     rest r = bs ++ rest r' /\ (e = None \/ e = Some EEOF /\ rest r' = [])).

(** Big-endian bytes, spelled out. *)
Definition be32 (n : Z) : list byte :=
  [n / 2 ^ 24 mod 256; n / 2 ^ 16 mod 256; n / 2 ^ 8 mod 256; n / 2 ^ 0 mod 256].
Definition be64 (n : Z) : list byte :=
  [n / 2 ^ 56 mod 256; n / 2 ^ 48 mod 256; n / 2 ^ 40 mod 256; n / 2 ^ 32 mod 256;
   n / 2 ^ 24 mod 256; n / 2 ^ 16 mod 256; n / 2 ^ 8 mod 256; n / 2 ^ 0 mod 256].
