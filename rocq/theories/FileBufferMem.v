(** internal/helpers/file_buffer.go once more, with the memory its buffer shares with the
    slices of its users (see SliceHeap.v for slices and FileBuffer.v for the values). *)
From Verif Require Import Base SliceHeap FileBuffer.

(** file_buffer.go:10-14 *)
Record mbuffer := MBuffer { mb_buffer : slice; mb_offset : Z; mb_closed : bool }.

Section memory.
Context (grow : nat -> nat -> nat).

(** make([]byte, 0, n) *)
Definition make_bytes (m : mem byte) (n : nat) : mem byte * slice :=
  let id := fresh (dom m) in (<[id := replicate n 0]> m, Slice id 0 0 n).

(** file_buffer.go:18-27 NewFileBuffer; [None] is nil.  A given slice becomes the buffer. *)
Definition m_new_filebuffer (m : mem byte) (initial : option slice) : mem byte * mbuffer :=
  let '(m, s) := match initial with Some s => (m, s) | None => make_bytes m 100 end in
  (m, MBuffer s 0 false).

(** file_buffer.go:29-31 Bytes *)
Definition m_bytes (fb : mbuffer) : slice := mb_buffer fb.

(** file_buffer.go:37-52 Read into the slice [b]. *)
Definition m_fb_read (m : mem byte) (fb : mbuffer) (b : slice) : outcome (mem byte * mbuffer * fbres) :=
  if mb_closed fb then Ret (m, fb, FBRes [] 0 (Some EClosed)) else
  let available := Z.of_nat (sl_len (mb_buffer fb)) - mb_offset fb in
  if available =? 0 then Ret (m, fb, FBRes [] 0 (Some EEOF)) else
  let size := Z.of_nat (sl_len b) in
  let size := if available <? size then available else size in
  obind (reslice (mb_buffer fb) (mb_offset fb) (mb_offset fb + size)) (fun src =>
  let bs := take (sl_len b) (view m src) in
  Ret (store m b 0 bs, MBuffer (mb_buffer fb) (mb_offset fb + size) (mb_closed fb),
       FBRes bs size None)).

(** file_buffer.go:54-64 Write of the slice [b]; the bytes that do not fit are read after
    the others were copied. *)
Definition m_fb_write (m : mem byte) (fb : mbuffer) (b : slice) : outcome (mem byte * mbuffer * fbres) :=
  if mb_closed fb then Ret (m, fb, FBRes [] 0 (Some EClosed)) else
  obind (reslice (mb_buffer fb) (mb_offset fb) (Z.of_nat (sl_len (mb_buffer fb)))) (fun dst =>
  let copied := Nat.min (sl_len dst) (sl_len b) in
  let m1 := store m dst 0 (take copied (view m b)) in
  let '(m2, buffer) :=
    if (copied <? sl_len b)%nat
    then append_slice 0 grow m1 (mb_buffer fb) (drop copied (view m1 b)) else (m1, mb_buffer fb) in
  Ret (m2, MBuffer buffer (mb_offset fb + Z.of_nat (sl_len b)) (mb_closed fb),
       FBRes [] (Z.of_nat (sl_len b)) None)).

(** file_buffer.go:66-86 Seek *)
Definition m_fb_seek (m : mem byte) (fb : mbuffer) (offset whence : Z) : outcome (mem byte * mbuffer * fbres) :=
  if mb_closed fb then Ret (m, fb, FBRes [] 0 (Some EClosed)) else
  let len := Z.of_nat (sl_len (mb_buffer fb)) in
  let target :=
    if whence =? 0 then Some offset
    else if whence =? 1 then Some (wrap I64 (mb_offset fb + offset))
    else if whence =? 2 then Some (wrap I64 (len + offset))
    else None in
  match target with
  | None => Ret (m, fb, FBRes [] 0 (Some EInvalid))
  | Some new_offset =>
    if (len <? new_offset) || (new_offset <? 0) then Ret (m, fb, FBRes [] 0 (Some EInvalid))
    else Ret (m, MBuffer (mb_buffer fb) new_offset (mb_closed fb), FBRes [] new_offset None)
  end.

(** file_buffer.go:105-107: the loop that appends zeros. *)
Fixpoint append_zeros (n : nat) (m : mem byte) (s : slice) : mem byte * slice :=
  match n with
  | O => (m, s)
  | S n => let '(m, s) := append_slice 0 grow m s [0] in append_zeros n m s
  end.

(** file_buffer.go:88-110 Truncate *)
Definition m_fb_truncate (m : mem byte) (fb : mbuffer) (size : Z) : outcome (mem byte * mbuffer * fbres) :=
  if mb_closed fb then Ret (m, fb, FBRes [] 0 (Some EClosed)) else
  if size <? 0 then Ret (m, fb, FBRes [] 0 (Some EInvalid)) else
  let offset := if size <? mb_offset fb then size else mb_offset fb in
  let diff := size - Z.of_nat (sl_len (mb_buffer fb)) in
  if diff <=? 0 then
    obind (reslice (mb_buffer fb) 0 size) (fun b =>
    Ret (m, MBuffer b offset (mb_closed fb), FBRes [] 0 None))
  else
    let old := mb_buffer fb in
    let '(m, b) := make_bytes m (Z.to_nat size) in
    let '(m, b) := append_slice 0 grow m b (view m old) in
    let '(m, b) := append_zeros (Z.to_nat diff) m b in
    Ret (m, MBuffer b offset (mb_closed fb), FBRes [] 0 None).

(** file_buffer.go:112-115 Close *)
Definition m_fb_close (m : mem byte) (fb : mbuffer) : outcome (mem byte * mbuffer * fbres) :=
  Ret (m, MBuffer (mb_buffer fb) (mb_offset fb) true, FBRes [] 0 None).

(** ** Sessions (what a program may do; not code of the repository): calls on the
    FileBuffer, and anything else, after which the memory is [m]. *)
Inductive mcall :=
| MRead (b : slice) | MWrite (b : slice) | MSeek (offset whence : Z) | MTruncate (size : Z) | MClose
| MElse (m : mem byte).

(** The last component: question and answer. *)
Definition m_fb_step (c : mcall) (m : mem byte) (fb : mbuffer)
  : outcome (mem byte * mbuffer * list (fbcall * fbres)) :=
  let ask q o := obind o (fun '(m', fb', r) => Ret (m', fb', [(q, r)])) in
  match c with
  | MRead b => ask (CRead (sl_len b)) (m_fb_read m fb b)
  | MWrite b => ask (CWrite (view m b)) (m_fb_write m fb b)
  | MSeek o w => ask (CSeek o w) (m_fb_seek m fb o w)
  | MTruncate s => ask (CTruncate s) (m_fb_truncate m fb s)
  | MClose => ask CClose (m_fb_close m fb)
  | MElse m' => Ret (m', fb, [])
  end.

Fixpoint m_fb_run (cs : list mcall) (m : mem byte) (fb : mbuffer)
  : outcome (mem byte * mbuffer * list (fbcall * fbres)) :=
  match cs with
  | [] => Ret (m, fb, [])
  | c :: cs' =>
    obind (m_fb_step c m fb) (fun '(m', fb', l) =>
    obind (m_fb_run cs' m' fb') (fun '(m'', fb'', l') => Ret (m'', fb'', l ++ l')))
  end.
End memory.
