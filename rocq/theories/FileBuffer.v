(** internal/helpers/file_buffer.go, with its possible panics. *)
From Verif Require Import Base.

(** file_buffer.go:10-14.  The backing array's capacity and its sharing with the
    slice given to NewFileBuffer are in FileBufferMem.v. *)
Record filebuffer := FB { fb_buffer : list byte; fb_offset : Z; fb_closed : bool }.

(** file_buffer.go:18-27 *)
Definition new_filebuffer (initial : list byte) : filebuffer := FB initial 0 false.

(** What a call returns: the bytes put into the caller's buffer, the number
    returned (0 if the method returns none) and the error. *)
Record fbres := FBRes { res_bytes : list byte; res_n : Z; res_err : option err }.

(** s[lo:hi] *)
Definition go_slice (s : list byte) (lo hi : Z) : outcome (list byte) :=
  if (0 <=? lo) && (lo <=? hi) && (hi <=? Z.of_nat (length s))
  then Ret (take (Z.to_nat (hi - lo)) (drop (Z.to_nat lo) s)) else Panic.

(** file_buffer.go:37-52; [n] is len(b). *)
Definition fb_read (n : Z) (fb : filebuffer) : outcome (filebuffer * fbres) :=
  if fb_closed fb then Ret (fb, FBRes [] 0 (Some EClosed)) else
  let available := Z.of_nat (length (fb_buffer fb)) - fb_offset fb in
  if available =? 0 then Ret (fb, FBRes [] 0 (Some EEOF)) else
  let size := if available <? n then available else n in
  obind (go_slice (fb_buffer fb) (fb_offset fb) (fb_offset fb + size)) (fun bs =>
  Ret (FB (fb_buffer fb) (fb_offset fb + size) (fb_closed fb), FBRes bs size None)).

(** file_buffer.go:54-64 *)
Definition fb_write (b : list byte) (fb : filebuffer) : outcome (filebuffer * fbres) :=
  if fb_closed fb then Ret (fb, FBRes [] 0 (Some EClosed)) else
  obind (go_slice (fb_buffer fb) (fb_offset fb) (Z.of_nat (length (fb_buffer fb)))) (fun dst =>
  let copied := Nat.min (length dst) (length b) in
  let buffer := take (Z.to_nat (fb_offset fb)) (fb_buffer fb) ++
                take copied b ++ drop copied dst in
  let buffer := if (copied <? length b)%nat then buffer ++ drop copied b else buffer in
  Ret (FB buffer (fb_offset fb + Z.of_nat (length b)) (fb_closed fb),
       FBRes [] (Z.of_nat (length b)) None)).

(** file_buffer.go:66-86; io.SeekStart = 0, io.SeekCurrent = 1, io.SeekEnd = 2.
    int64 arithmetic wraps around. *)
Definition fb_seek (offset whence : Z) (fb : filebuffer) : outcome (filebuffer * fbres) :=
  if fb_closed fb then Ret (fb, FBRes [] 0 (Some EClosed)) else
  let len := Z.of_nat (length (fb_buffer fb)) in
  let target :=
    if whence =? 0 then Some offset
    else if whence =? 1 then Some (wrap I64 (fb_offset fb + offset))
    else if whence =? 2 then Some (wrap I64 (len + offset))
    else None in
  match target with
  | None => Ret (fb, FBRes [] 0 (Some EInvalid))
  | Some new_offset =>
    if (len <? new_offset) || (new_offset <? 0) then Ret (fb, FBRes [] 0 (Some EInvalid))
    else Ret (FB (fb_buffer fb) new_offset (fb_closed fb), FBRes [] new_offset None)
  end.

(** file_buffer.go:88-110 *)
Definition fb_truncate (size : Z) (fb : filebuffer) : outcome (filebuffer * fbres) :=
  if fb_closed fb then Ret (fb, FBRes [] 0 (Some EClosed)) else
  if size <? 0 then Ret (fb, FBRes [] 0 (Some EInvalid)) else
  let offset := if size <? fb_offset fb then size else fb_offset fb in
  let diff := size - Z.of_nat (length (fb_buffer fb)) in
  if diff <=? 0 then
    obind (go_slice (fb_buffer fb) 0 size) (fun b =>
    Ret (FB b offset (fb_closed fb), FBRes [] 0 None))
  else
    Ret (FB (fb_buffer fb ++ replicate (Z.to_nat diff) 0) offset (fb_closed fb),
         FBRes [] 0 None).

(** file_buffer.go:112-115 *)
Definition fb_close (fb : filebuffer) : outcome (filebuffer * fbres) :=
  Ret (FB (fb_buffer fb) (fb_offset fb) true, FBRes [] 0 None).

Inductive fbcall :=
| CRead (n : nat) | CWrite (b : list byte) | CSeek (offset whence : Z)
| CTruncate (size : Z) | CClose.

Definition fb_step (c : fbcall) (fb : filebuffer) : outcome (filebuffer * fbres) :=
  match c with
  | CRead n => fb_read (Z.of_nat n) fb
  | CWrite b => fb_write b fb
  | CSeek o w => fb_seek o w fb
  | CTruncate s => fb_truncate s fb
  | CClose => fb_close fb
  end.

(** A whole session: final state and the results, or the first panic. *)
Fixpoint fb_run (cs : list fbcall) (fb : filebuffer) : outcome (filebuffer * list fbres) :=
  match cs with
  | [] => Ret (fb, [])
  | c :: cs' =>
    obind (fb_step c fb) (fun '(fb', r) =>
    obind (fb_run cs' fb') (fun '(fb'', rs) => Ret (fb'', r :: rs)))
  end.
