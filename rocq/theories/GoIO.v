(** Files, readers, writers and the parts of Go's io, bufio and encoding/binary
    packages that the repository uses, plus internal/helpers/io.go. *)
From Verif Require Import Base.

(** ** A call that may change a state [S] and returns an [outcome] *)

Definition io (S A : Type) : Type := S -> S * outcome A.
Definition ioret {S A} (a : A) : io S A := fun s => (s, Ret a).
Definition iofail {S A} (e : err) : io S A := fun s => (s, Err e).
Definition iobind {S A B} (m : io S A) (k : A -> io S B) : io S B := fun s =>
  match m s with
  | (s', Ret a) => k a s'
  | (s', Err e) => (s', Err e)
  | (s', Panic) => (s', Panic)
  | (s', Hang) => (s', Hang)
  end.
(** Lift a pure outcome. *)
Definition iolift {S A} (o : outcome A) : io S A := fun s => (s, o).
(** [if err != nil { return g(err) }] *)
Definition iomaperr {S A} (g : err -> err) (m : io S A) : io S A := fun s =>
  match m s with (s', Err e) => (s', Err (g e)) | x => x end.

Notation "'do' x <- m ; k" := (iobind m (fun x => k))
  (at level 200, x pattern, m at level 100, k at level 200, only parsing).
Notation "'run' m ; k" := (iobind m (fun _ => k))
  (at level 200, m at level 100, k at level 200, only parsing).

(** Run a call on one half of a pair of states. *)
Definition on_fst {S T A} (m : io S A) : io (S * T) A := fun '(s, t) =>
  let '(s', o) := m s in ((s', t), o).
Definition on_snd {S T A} (m : io T A) : io (S * T) A := fun '(s, t) =>
  let '(t', o) := m t in ((s, t'), o).

(** ** io.Reader and io.Writer *)

(** Read into a buffer of the given length: the bytes read and the error. *)
Definition reader (R : Type) : Type := nat -> R -> R * (list byte * option err).
(** Write: number of bytes written and the error. *)
Definition writer (W : Type) : Type := list byte -> W -> W * (nat * option err).

(** ** Random access files (internal/domain/randomaccessfile.go)

    [KBuf]: internal/helpers/file_buffer.go (its exact model, with panics, is in
    FileBuffer.v and is proved to behave like this one).  [KOs]: *os.File on a
    regular file opened O_RDWR. *)

Inductive fkind := KBuf | KOs.

(** Byte-level changes of a file's content, in the order they were issued. *)
Inductive wop := WSet (off : nat) (b : byte) | WTrunc (n : nat).

(** What the environment does to a read or write: complete it, or fail it after
    [n] bytes. *)
Inductive fault := FOk | FErr (n : nat).

Record file := File {
  f_kind : fkind;
  f_data : list byte;
  f_pos : nat;
  f_closed : bool;
  f_env : list fault;   (* outcomes of the next reads, writes, truncations, closes; [] = all complete *)
  f_log : list wop      (* ghost: changes issued so far *)
}.

Definition zeros (n : nat) : list byte := replicate n 0.

(** Overwrite/extend [d] by [bs] at offset [off], zero-filling a gap. *)
Definition splice (off : nat) (bs d : list byte) : list byte :=
  take off (d ++ zeros (off - length d)) ++ bs ++ drop (off + length bs) d.

Definition resize (n : nat) (d : list byte) : list byte :=
  take n (d ++ zeros (n - length d)).

Definition apply_wop (d : list byte) (o : wop) : list byte :=
  match o with WSet off b => splice off [b] d | WTrunc n => resize n d end.

Definition replay (log : list wop) (d : list byte) : list byte := fold_left apply_wop log d.

Fixpoint wsets (off : nat) (bs : list byte) : list wop :=
  match bs with [] => [] | b :: bs' => WSet off b :: wsets (S off) bs' end.

Definition fput (bs : list byte) (f : file) : file :=
  match bs with
  | [] => f
  | _ => File (f_kind f) (splice (f_pos f) bs (f_data f)) (f_pos f + length bs)
           (f_closed f) (f_env f) (f_log f ++ wsets (f_pos f) bs)
  end.

Definition fset_pos (p : nat) (f : file) : file :=
  File (f_kind f) (f_data f) p (f_closed f) (f_env f) (f_log f).

Definition next_fault (f : file) : fault * file :=
  match f_env f with
  | [] => (FOk, f)
  | x :: r => (x, File (f_kind f) (f_data f) (f_pos f) (f_closed f) r (f_log f))
  end.

(** os.File.Read / file_buffer.go:37-52.  A FileBuffer answers EOF at the end even
    to a read of length 0; an OS file does not. *)
Definition fread : reader file := fun n f =>
  if f_closed f then (f, ([], Some EClosed)) else
  let '(x, f) := next_fault f in
  let rest := drop (f_pos f) (f_data f) in
  match x with
  | FErr k =>
    let bs := take (Nat.min k n) rest in
    (fset_pos (f_pos f + length bs) f, (bs, Some EInjected))
  | FOk =>
    match f_kind f, n, rest with
    | KOs, O, _ => (f, ([], None))
    | _, _, [] => (f, ([], Some EEOF))
    | _, _, _ =>
      let bs := take n rest in (fset_pos (f_pos f + length bs) f, (bs, None))
    end
  end.

(** os.File.Write / file_buffer.go:54-64 *)
Definition fwrite : writer file := fun bs f =>
  if f_closed f then (f, (O, Some EClosed)) else
  let '(x, f) := next_fault f in
  match x with
  | FErr k => let bs := take k bs in (fput bs f, (length bs, Some EInjected))
  | FOk => (fput bs f, (length bs, None))
  end.

Inductive whence := SeekStart | SeekCurrent | SeekEnd.

(** os.File.Seek / file_buffer.go:66-86.  An OS file may be positioned past its end. *)
Definition fseek (offset : Z) (w : whence) : io file Z := fun f =>
  if f_closed f then (f, Err EClosed) else
  let target :=
    match w with
    | SeekStart => offset
    | SeekCurrent => Z.of_nat (f_pos f) + offset
    | SeekEnd => Z.of_nat (length (f_data f)) + offset
    end in
  let bad :=
    match f_kind f with
    | KBuf => (target <? 0) || (Z.of_nat (length (f_data f)) <? target)
    | KOs => target <? 0
    end in
  if bad then (f, Err EInvalid) else (fset_pos (Z.to_nat target) f, Ret target).

(** os.File.Truncate / file_buffer.go:88-110.  A FileBuffer moves its offset back
    into the content, an OS file does not.  A failing call changes nothing. *)
Definition ftruncate (size : Z) : io file unit := fun f =>
  if f_closed f then (f, Err EClosed) else
  let '(x, f) := next_fault f in
  match x with
  | FErr _ => (f, Err EInjected)
  | FOk =>
    if size <? 0 then (f, Err EInvalid)
    else
      let n := Z.to_nat size in
      let pos := match f_kind f with KBuf => Nat.min (f_pos f) n | KOs => f_pos f end in
      (File (f_kind f) (resize n (f_data f)) pos (f_closed f) (f_env f) (f_log f ++ [WTrunc n]),
       Ret tt)
  end.

(** os.File.Close (an error if already closed; the file is closed also if the call
    fails) / file_buffer.go:112-115 *)
Definition fclose : io file unit := fun f =>
  match f_kind f, f_closed f with
  | KOs, true => (f, Err EClosed)
  | KOs, false =>
    let '(x, f) := next_fault f in
    (File (f_kind f) (f_data f) (f_pos f) true (f_env f) (f_log f),
     match x with FErr _ => Err EInjected | FOk => Ret tt end)
  | KBuf, _ => (File (f_kind f) (f_data f) (f_pos f) true (f_env f) (f_log f), Ret tt)
  end.

(** A file just opened on some content. *)
Definition open_file (k : fkind) (d : list byte) : file := File k d 0 false [] [].

(** ** io.ReadFull (io.ReadAtLeast with min = len(buf)) *)

Fixpoint read_full_loop {R} (rd : reader R) (fuel n : nat) (acc : list byte) (r : R)
  : R * outcome (list byte) :=
  if (n <=? length acc)%nat then (r, Ret acc) else
  match fuel with
  | O => (r, Hang)
  | S fuel =>
    let '(r', (bs, e)) := rd (n - length acc)%nat r in
    let acc := acc ++ bs in
    match e with
    | None => read_full_loop rd fuel n acc r'
    | Some e =>
      if (n <=? length acc)%nat then (r', Ret acc)
      else match e, acc with
           | EEOF, _ :: _ => (r', Err EUnexpectedEOF)
           | _, _ => (r', Err e)
           end
    end
  end.

Definition read_full {R} (rd : reader R) (n : nat) : io R (list byte) :=
  read_full_loop rd n n [].

(** encoding/binary.Read of an unsigned integer of [k] bytes, big-endian.
    (Named types such as DeltaOp go through reflection, with the same result.) *)
Definition read_uint {R} (rd : reader R) (k : nat) : io R Z :=
  do bs <- read_full rd k; ioret (be_dec bs).

(** Split into groups of [k]. *)
Fixpoint groups (fuel k : nat) (bs : list byte) : list (list byte) :=
  match fuel, bs with
  | S fuel, _ :: _ => take k bs :: groups fuel k (drop k bs)
  | _, _ => []
  end.

(** encoding/binary.Read into a []uint64 of length [n]: one io.ReadFull of 8n
    bytes (nothing is read when n = 0). *)
Definition read_uint64s {R} (rd : reader R) (n : nat) : io R (list Z) :=
  do bs <- read_full rd (8 * n); ioret (map be_dec (groups n 8 bs)).

(** ** Writing everything: [_, err := w.Write(bs)] *)
Definition write_all {W} (wr : writer W) (bs : list byte) : io W unit := fun w =>
  let '(w', (_, e)) := wr bs w in
  (w', match e with None => Ret tt | Some e => Err e end).

(** encoding/binary.Write of an unsigned integer of [k] bytes: one Write. *)
Definition write_uint {W} (wr : writer W) (k : nat) (n : Z) : io W unit :=
  write_all wr (be_enc k n).

(** encoding/binary.Write of a []uint64: one Write of all the elements. *)
Definition write_uint64s {W} (wr : writer W) (l : list Z) : io W unit :=
  write_all wr (concat (map (be_enc 8) l)).

(** ** bufio.Writer with a buffer of [size] bytes *)

Record bwriter (W : Type) := BWriter { bw_w : W; bw_buf : list byte; bw_err : option err }.
Arguments BWriter {W} bw_w bw_buf bw_err.
Arguments bw_w {W} b.
Arguments bw_buf {W} b.
Arguments bw_err {W} b.

Definition new_bwriter {W} (w : W) : bwriter W := BWriter w [] None.

(** bufio.Writer.Flush *)
Definition bw_flush {W} (wr : writer W) : io (bwriter W) unit := fun b =>
  match bw_err b with
  | Some e => (b, Err e)
  | None =>
    match bw_buf b with
    | [] => (b, Ret tt)
    | _ =>
      let '(w', (n, e)) := wr (bw_buf b) (bw_w b) in
      let e := match e with
               | None => if (n <? length (bw_buf b))%nat then Some EShortWrite else None
               | Some _ => e
               end in
      match e with
      | Some e => (BWriter w' (drop n (bw_buf b)) (Some e), Err e)
      | None => (BWriter w' [] None, Ret tt)
      end
    end
  end.

(** bufio.Writer.Write *)
Fixpoint bw_write_loop {W} (wr : writer W) (size fuel : nat) (nn : nat) (p : list byte)
    (b : bwriter W) : bwriter W * (nat * option err) :=
  let avail := (size - length (bw_buf b))%nat in
  match bw_err b with
  | Some e => (b, (nn, Some e))
  | None =>
    if (length p <=? avail)%nat
    then (BWriter (bw_w b) (bw_buf b ++ p) None, ((nn + length p)%nat, None))
    else
      match fuel with
      | O => (b, (nn, Some EDiverge))
      | S fuel =>
        match bw_buf b with
        | [] =>
          let '(w', (n, e)) := wr p (bw_w b) in
          bw_write_loop wr size fuel (nn + n) (drop n p) (BWriter w' [] e)
        | _ =>
          let '(b', _) := bw_flush wr (BWriter (bw_w b) (bw_buf b ++ take avail p) None) in
          bw_write_loop wr size fuel (nn + avail) (drop avail p) b'
        end
      end
  end.

Definition bw_write {W} (wr : writer W) (size : nat) : writer (bwriter W) := fun p b =>
  bw_write_loop wr size (length p + 2) 0 p b.

(** Use a bufio.Writer on a file and drop it. *)
Definition with_bufio {A} (m : io (bwriter file) A) : io file A := fun f =>
  let '(b, o) := m (new_bwriter f) in (bw_w b, o).

(** [file.Seek(...)] with the result ignored. *)
Definition ignore {S A} (m : io S A) : io S unit := fun s => (fst (m s), Ret tt).

(** ** bufio.Reader with a buffer of [size] bytes *)

Record breader (R : Type) := BReader { br_r : R; br_buf : list byte; br_err : option err }.
Arguments BReader {R} br_r br_buf br_err.
Arguments br_r {R} b.
Arguments br_buf {R} b.
Arguments br_err {R} b.

(** bufio.NewReader; also bufio.Reader.Reset. *)
Definition new_breader {R} (r : R) : breader R := BReader r [] None.

(** bufio.Reader.Read *)
Definition br_read {R} (rd : reader R) (size : nat) : reader (breader R) := fun n b =>
  let take_buf b := (BReader (br_r b) (drop n (br_buf b)) (br_err b), (take n (br_buf b), None)) in
  match n, br_buf b with
  | O, _ :: _ => (b, ([], None))
  | O, [] => (BReader (br_r b) [] None, ([], br_err b))
  | _, _ :: _ => take_buf b
  | _, [] =>
    match br_err b with
    | Some e => (BReader (br_r b) [] None, ([], Some e))
    | None =>
      if (size <=? n)%nat then
        let '(r', (bs, e)) := rd n (br_r b) in (BReader r' [] None, (bs, e))
      else
        let '(r', (bs, e)) := rd size (br_r b) in
        match bs with
        | [] => (BReader r' [] None, ([], e))
        | _ => take_buf (BReader r' bs e)
        end
    end
  end.

(** Use a bufio.Reader on a file and drop it. *)
Definition with_breader {A} (m : io (breader file) A) : io file A := fun f =>
  let '(b, o) := m (new_breader f) in (br_r b, o).
(** A call on the file under a bufio.Reader. *)
Definition under_reader {A} (m : io file A) : io (breader file) A := fun b =>
  let '(f, o) := m (br_r b) in (BReader f (br_buf b) (br_err b), o).

(** ** internal/helpers/io.go *)

(** io.go:7-11 *)
Definition chunk_size : Z := 100.

(** io.go:14-28 WriteZeros *)
Fixpoint write_zeros_loop {W} (wr : writer W) (fuel : nat) (size total : Z) (w : W)
  : W * (Z * option err) :=
  if total <? size then
    match fuel with
    | O => (w, (total, Some EDiverge))
    | S fuel =>
      let chunk := Z.min (size - total) chunk_size in
      let '(w', (n, e)) := wr (zeros (Z.to_nat chunk)) w in
      let total := total + Z.of_nat n in
      match e with
      | Some e => (w', (total, Some e))
      | None => write_zeros_loop wr fuel size total w'
      end
    end
  else (w, (total, None)).

Definition write_zeros {W} (wr : writer W) (size : Z) (w : W) : W * (Z * option err) :=
  write_zeros_loop wr (Z.to_nat size) size 0 w.

(** io.go:31-48 SkipReading *)
Fixpoint skip_loop {R} (rd : reader R) (fuel : nat) (size skipped : Z) (r : R)
  : R * (Z * option err) :=
  if skipped <? size then
    match fuel with
    | O => (r, (skipped, Some EDiverge))
    | S fuel =>
      let chunk := Z.min (size - skipped) chunk_size in
      let '(r', (bs, e)) := rd (Z.to_nat chunk) r in
      let skipped := skipped + Z.of_nat (length bs) in
      match e with
      | Some e => (r', (skipped, Some e))
      | None => skip_loop rd fuel size skipped r'
      end
    end
  else (r, (skipped, None)).

Definition skip_reading {R} (rd : reader R) (size : Z) (r : R) : R * (Z * option err) :=
  if size =? 0 then (r, (0, None)) else skip_loop rd (Z.to_nat size) size 0 r.

(** [_, err := helper(...); if err != nil { return err }] *)
Definition only_err {S N} (m : S -> S * (N * option err)) : io S unit := fun s =>
  let '(s', (_, e)) := m s in (s', match e with None => Ret tt | Some e => Err e end).

(** ** io.Copy (io.copyBuffer with a buffer of [size] bytes; neither side of the
    only call in the repository offers a shortcut that skips bytes). *)
Fixpoint copy_loop {R W} (rd : reader R) (wr : writer W) (size fuel : nat) (written : Z)
    (s : R * W) : (R * W) * outcome Z :=
  match fuel with
  | O => (s, Hang)
  | S fuel =>
    let '(r', (bs, er)) := rd size (fst s) in
    match bs with
    | [] =>
      match er with
      | Some EEOF => ((r', snd s), Ret written)
      | Some e => ((r', snd s), Err e)
      | None => copy_loop rd wr size fuel written (r', snd s)
      end
    | _ =>
      let '(w', (nw, ew)) := wr bs (snd s) in
      let written := written + Z.of_nat nw in
      match ew with
      | Some e => ((r', w'), Err e)
      | None =>
        if negb (nw =? length bs)%nat then ((r', w'), Err EShortWrite)
        else match er with
             | Some EEOF => ((r', w'), Ret written)
             | Some e => ((r', w'), Err e)
             | None => copy_loop rd wr size fuel written (r', w')
             end
      end
    end
  end.
