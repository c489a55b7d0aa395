(** What sml_transport_read and sml_transport_listen write to stderr: the reader of
    Transport.v once more, with the lines it prints (sml_transport.c:50, 71, 107). *)
From Verif Require Import Base Buf Crc16 Number OctetString Boolean Value Time SList Tree Bodies Message File Transport.

Inductive notice : Type :=
| ReadError        (* sml_transport.c:50, "libsml: sml_read(): read error" *)
| TooSmall         (* sml_transport.c:71, "libsml: error: sml_transport_read(): passed buffer too small!" *)
| Unrecognized.    (* sml_transport.c:107, "libsml: error: unrecognized sequence" *)

(** The lines, and what the code does otherwise. *)
Definition N (A : Type) : Type := list Z * fd -> list notice * outcome (A * (list Z * fd)).
Definition still {A} (p : T A) : N A := fun s => ([], p s).
Definition notify (l : notice) : N unit := fun s => ([l], Ret (tt, s)).
Definition nbind {A B} (p : N A) (k : A -> N B) : N B := fun s =>
  match p s with
  | (l, Ret (x, s')) => let '(l', o) := k x s' in (l ++ l', o)
  | (l, Fault f) => (l, Fault f)
  | (l, NoFuel) => (l, NoFuel)
  end.

(** sml_transport.c:40-55 *)
Fixpoint n_read_loop (fuel : nat) (pos tr len : nat) : N nat := fun st =>
  let (buf, d) := st in
  if (tr <? len)%nat then
    match fuel with
    | O => ([], NoFuel)
    | S fuel' =>
        match sys_read d (len - tr) with
        | (REof, d') => ([], Ret (O, (buf, d')))
        | (RErr, d') => ([ReadError], Ret (O, (buf, d')))
        | (RAgain, d') => n_read_loop fuel' pos tr len (buf, d')
        | (RBytes bs, d') =>
            if (pos + tr + length bs <=? length buf)%nat
            then n_read_loop fuel' pos (tr + length bs) len (upds buf (pos + tr) bs, d')
            else ([], Fault OobWrite)
        end
    end
  else ([], Ret (tr, (buf, d))).
(** sml_transport.c:35-57 *)
Definition n_read (pos len : nat) : N nat := fun st => n_read_loop (S (fd_size (snd st))) pos O len st.

(** sml_transport.c:75-85 *)
Fixpoint n_find_start (fuel : nat) (len : nat) : N bool :=
  if (len <? 8)%nat then
    match fuel with
    | O => still out_of_fuel
    | S fuel' =>
        nbind (n_read len 1) (fun r =>
        if (r =? 0)%nat then still (ret false) else
        nbind (still (get_buf len)) (fun b =>
        if ((b =? 27) && (len <? 4)%nat) || ((b =? 1) && (4 <=? len)%nat)
        then n_find_start fuel' (S len)
        else n_find_start fuel' O))
    end
  else still (ret true).

(** sml_transport.c:88-114 *)
Fixpoint n_read_frame (fuel : nat) (len max_len : nat) : N nat :=
  if (len + 8 <? max_len)%nat then
    match fuel with
    | O => still out_of_fuel
    | S fuel' =>
        nbind (n_read len 4) (fun r =>
        if (r =? 0)%nat then still (ret O) else
        nbind (still (get_buf4 len)) (fun w =>
        if memcmp w esc_seq =? 0 then
          let len := (len + 4)%nat in
          nbind (n_read len 4) (fun r =>
          if (r =? 0)%nat then still (ret O) else
          nbind (still (get_buf len)) (fun b =>
          if b =? 26 then still (ret (len + 4)%nat)
          else nbind (notify Unrecognized) (fun _ => still (ret O))))
        else n_read_frame fuel' (len + 4) max_len))
    end
  else still (ret O).

(** sml_transport.c:59-115 *)
Definition n_transport_read (max_len : nat) (d : fd) : list notice * outcome (nat * list Z * fd) :=
  if (max_len <? 8)%nat then ([TooSmall], Ret (O, [], d)) else
  let st := (repeat 0 max_len, d) in
  match nbind (n_find_start (S (fd_size d)) O) (fun ok =>
        if (ok : bool) then n_read_frame (S max_len) 8 max_len else still (ret O)) st with
  | (l, Ret (len, (buf, d'))) =>
      if (len =? 0)%nat then (l, Ret (O, [], d'))
      else if (len <=? max_len)%nat then (l, Ret (len, firstn len buf, d'))
      else (l, Fault OobWrite)
  | (l, Fault f) => (l, Fault f)
  | (l, NoFuel) => (l, NoFuel)
  end.

(** sml_transport.c:117-125 *)
Fixpoint n_listen_loop (fuel : nat) (d : fd) : list notice * outcome (list (list Z) * fd) :=
  match fuel with
  | O => ([], NoFuel)
  | S fuel' =>
      match n_transport_read MC_SML_BUFFER_LEN d with
      | (l, Ret (len, bs, d')) =>
          if (len =? 0)%nat then (l, Ret ([], d'))
          else match n_listen_loop fuel' d' with
               | (l', Ret (fs, d'')) => (l ++ l', Ret (bs :: fs, d''))
               | (l', Fault f) => (l ++ l', Fault f)
               | (l', NoFuel) => (l ++ l', NoFuel)
               end
      | (l, Fault f) => (l, Fault f)
      | (l, NoFuel) => (l, NoFuel)
      end
  end.
Definition n_transport_listen (d : fd) : list notice * outcome (list (list Z) * fd) :=
  n_listen_loop (S (fd_size d)) d.
