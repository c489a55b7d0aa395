(** Model of sml/src/sml_transport.c. *)
From Verif Require Import Base Buf Crc16 Number OctetString Boolean Value Time SList Tree Bodies Message File.

Definition MC_SML_BUFFER_LEN : nat := Z.to_nat 8096.
(** sml_transport.c:31-33 *)
Definition esc_seq : list Z := [27; 27; 27; 27].
Definition start_seq : list Z := [27; 27; 27; 27; 1; 1; 1; 1].
Definition end_seq : list Z := [27; 27; 27; 27; 26].

(** The device behind the file descriptor: what successive read() calls can
    return.  [Chunk c]: the bytes c are available; a read takes as many of them
    as it asks for, the rest stays available.  [Intr]: read fails with EINTR or
    EAGAIN.  [Err]: read fails otherwise.  No more events: end of file.
    select() (line 41) is assumed to return with the descriptor readable. *)
Inductive fd_event : Type :=
| Chunk (c : list Z)
| Intr
| Err.
Definition fd : Type := list fd_event.

(** Result of one read(fd, p, n) with n > 0. *)
Inductive read_result : Type :=
| RBytes (bs : list Z)
| REof
| RAgain
| RErr.

(** An empty chunk is a read that has nothing to return yet (EAGAIN). *)
Definition sys_read (d : fd) (n : nat) : read_result * fd :=
  match d with
  | [] => (REof, [])
  | Chunk [] :: t => (RAgain, t)
  | Chunk c :: t =>
      (RBytes (firstn n c), match skipn n c with [] => t | r => Chunk r :: t end)
  | Intr :: t => (RAgain, t)
  | Err :: t => (RErr, t)
  end.

(** Upper bound for the number of read() calls that do not end a sml_read. *)
Fixpoint fd_size (d : fd) : nat :=
  match d with
  | [] => O
  | Chunk c :: t => S (length c + fd_size t)
  | _ :: t => S (fd_size t)
  end.

(** State of sml_transport_read: the local array buf[max_len] and the device. *)
Definition T (A : Type) : Type := M (list Z * fd) A.

(** sml_transport.c:40-55.  Reads into buf[pos..]; [tr] = bytes read so far.
    Result: the return value (0 or len). *)
Fixpoint sml_read_loop (fuel : nat) (pos tr len : nat) : T nat := fun st =>
  let (buf, d) := st in
  if (tr <? len)%nat then
    match fuel with
    | O => NoFuel
    | S fuel' =>
        match sys_read d (len - tr) with
        | (REof, d') => Ret (O, (buf, d'))
        | (RErr, d') => Ret (O, (buf, d'))
        | (RAgain, d') => sml_read_loop fuel' pos tr len (buf, d')
        | (RBytes bs, d') =>
            if (pos + tr + length bs <=? length buf)%nat
            then sml_read_loop fuel' pos (tr + length bs) len (upds buf (pos + tr) bs, d')
            else Fault OobWrite
        end
    end
  else Ret (tr, (buf, d)).

(** sml_transport.c:35-57 *)
Definition sml_read (pos len : nat) : T nat := fun st =>
  sml_read_loop (S (fd_size (snd st))) pos O len st.

(** buf[i] *)
Definition get_buf (i : nat) : T Z := fun st =>
  match nth_error (fst st) i with
  | Some b => Ret (b, st)
  | None => Fault OobRead
  end.

(** buf[i .. i+3], for memcmp(&buf[len], esc_seq, 4) *)
Definition get_buf4 (i : nat) : T (list Z) := fun st =>
  if (i + 4 <=? length (fst st))%nat then Ret (firstn 4 (skipn i (fst st)), st)
  else Fault OobRead.

(** sml_transport.c:75-85.  Result: false = "return 0". *)
Fixpoint find_start (fuel : nat) (len : nat) : T bool :=
  if (len <? 8)%nat then
    match fuel with
    | O => out_of_fuel
    | S fuel' =>
        r <- sml_read len 1 ;;
        if (r =? 0)%nat then ret false else
        b <- get_buf len ;;
        if ((b =? 27) && (len <? 4)%nat) || ((b =? 1) && (4 <=? len)%nat)
        then find_start fuel' (S len)
        else find_start fuel' O
    end
  else ret true.

(** sml_transport.c:88-114.  Result: the value returned (0 on failure). *)
Fixpoint read_frame (fuel : nat) (len max_len : nat) : T nat :=
  if (len + 8 <? max_len)%nat then
    match fuel with
    | O => out_of_fuel
    | S fuel' =>
        r <- sml_read len 4 ;;
        if (r =? 0)%nat then ret O else
        w <- get_buf4 len ;;
        if memcmp w esc_seq =? 0 then
          let len := (len + 4)%nat in
          r <- sml_read len 4 ;;
          if (r =? 0)%nat then ret O else
          b <- get_buf len ;;
          if b =? 26 then ret (len + 4)%nat else ret O
        else read_frame fuel' (len + 4) max_len
    end
  else ret O.

(** sml_transport.c:59-115.  [max_len] is both the size of the local array and of
    the caller's [buffer].  Result: the return value, the bytes copied to the
    caller's buffer (none unless a frame was found) and the device afterwards.
    [len] is an unsigned int there and max_len a size_t; the model counts in nat,
    which is the same as long as max_len is below 2^32 (the library only uses 8096).
    The array of size 0 for max_len = 0 (strictly undefined) is not modelled:
    it returns 0 like the other small sizes. *)
Definition sml_transport_read (max_len : nat) (d : fd) : outcome (nat * list Z * fd) :=
  if (max_len <? 8)%nat then Ret (O, [], d) else
  let st := (repeat 0 max_len, d) in
  match (ok <- find_start (S (fd_size d)) O ;;
         if (ok : bool) then read_frame (S max_len) 8 max_len else ret O) st with
  | Ret (len, (buf, d')) =>
      if (len =? 0)%nat then Ret (O, [], d')
      else if (len <=? max_len)%nat then Ret (len, firstn len buf, d')   (* memcpy, line 103 *)
      else Fault OobWrite
  | Fault f => Fault f
  | NoFuel => NoFuel
  end.

(** sml_transport.c:117-125.  The receiver is a callback; the result is the list
    of byte strings it was called with, and the device afterwards. *)
Fixpoint listen_loop (fuel : nat) (d : fd) : outcome (list (list Z) * fd) :=
  match fuel with
  | O => NoFuel
  | S fuel' =>
      match sml_transport_read MC_SML_BUFFER_LEN d with
      | Ret (len, bs, d') =>
          if (len =? 0)%nat then Ret ([], d')
          else match listen_loop fuel' d' with
               | Ret (l, d'') => Ret (bs :: l, d'')
               | Fault f => Fault f
               | NoFuel => NoFuel
               end
      | Fault f => Fault f
      | NoFuel => NoFuel
      end
  end.
Definition sml_transport_listen (d : fd) : outcome (list (list Z) * fd) :=
  listen_loop (S (fd_size d)) d.

Section WithHost.
Context {H : Host}.

(** sml_transport.c:131-156, everything up to the write() call, as a writer on
    the file's buffer.  crc is computed over the whole buffer so far. *)
Definition transport_frame (msgs : list sml_message) : P (list sml_message) :=
  (fun s => Ret (tt, set_cursor 0 s)) ;;;
  write_current start_seq ;;;
  sml_buf_update_bytes_read 8 ;;;
  ms <- write_messages msgs ;;
  padding <- (fun s => Ret (if (cursor s mod 4 =? 0)%nat then O else (4 - cursor s mod 4)%nat, s)) ;;
  (if (padding =? 0)%nat then ret tt
   else write_current (repeat 0 padding) ;;; sml_buf_update_bytes_read (Z.of_nat padding)) ;;;
  write_current end_seq ;;;
  sml_buf_update_bytes_read 5 ;;;
  store_current (Z.of_nat padding) ;;; inc_cursor ;;;
  c <- cursor_int 0 ;;
  bs <- buffer_slice 0 c ;;
  let crc := sml_crc16_calculate bs in
  store_current (Z.shiftr (Z.land crc 65280) 8) ;;; inc_cursor ;;;
  store_current (Z.land crc 255) ;;; inc_cursor ;;;
  ret ms.

(** sml_transport.c:127-164.  [wr] is what write() returns for the number of
    bytes it is asked to write.  Result: return value, bytes handed to write(),
    file afterwards. *)
Definition sml_transport_write (wr : nat -> Z) (f : sml_file) : outcome (Z * list Z * sml_file) :=
  match transport_frame (f_messages f) (f_buf f) with
  | Ret (ms, s) =>
      let sent := firstn (cursor s) (buffer s) in
      let w := wr (cursor s) in
      Ret (if to_size w =? Z.of_nat (cursor s) then wrap32 w else 0, sent, mkFile ms s)
  | Fault x => Fault x
  | NoFuel => NoFuel
  end.

End WithHost.
