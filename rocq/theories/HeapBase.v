(** The heap: the memory obtained from malloc and given back by free.  Nothing
    in this file models a particular function of /repo. *)
From stdpp Require Import gmap.
From Verif Require Import Base Buf.

(** One member of a struct or one element of an array: NULL, the address of a
    block, or an integer.  Pointers into the middle of a block do not occur. *)
Inductive slot : Type :=
| Nul
| Ptr (l : nat)
| Int (z : Z).

(** A block: an array of bytes (the text of a string, or an integer object), or
    a struct or array of pointers, by its members. *)
Inductive block : Type :=
| Bytes (bs : list Z)
| Struct (ss : list slot).

Notation heap := (gmap nat block).

(** malloc may return any address that is not in use; addresses of freed blocks
    may come back.  Everything is proved for every such choice. *)
Class Allocator : Type := { choose : heap -> nat; choose_fresh : forall h, h !! choose h = None }.

(** The state: the buffer that is read or written (as in Buf; its content is not
    kept in the heap), the heap, and a counter that no function looks at: how
    often the DZG workaround has turned the type of a non-empty octet string into a
    number type (sml_list.c:255-256, see C47), and the largest amount of memory in
    use so far ([used], see C63), at which no function looks, either. *)
Record hstate : Type := mkH { hbuf : sbuf; hmem : heap; hconf : nat; hpeak : Z }.
Definition H (A : Type) : Type := M hstate A.

(** Bytes of a block: one for a byte, eight for a member of a struct or an element
    of an array, and 16 for the administration of the block. *)
Definition weight (b : block) : Z :=
  16 + match b with Bytes bs => Z.of_nat (length bs) | Struct ss => 8 * Z.of_nat (length ss) end.
(** Bytes in use: the sum over the blocks *)
Definition used (h : heap) : Z := map_fold (fun _ b n => weight b + n) 0 h.

(** Whether malloc and realloc succeed: the answer may depend on the request, on
    what is in use and on how far the program has come. *)
Class Memory : Type := { grants : hstate -> block -> bool }.

(** An action on the buffer alone. *)
Definition lift {A} (p : P A) : H A := fun st =>
  match p (hbuf st) with
  | Ret (a, s) => Ret (a, mkH s (hmem st) (hconf st) (hpeak st))
  | Fault f => Fault f
  | NoFuel => NoFuel
  end.
Definition set_mem (h : heap) (st : hstate) : hstate := mkH (hbuf st) h (hconf st) (hpeak st).
(** [w] more bytes are in use for a moment *)
Definition spike (w : Z) : H unit := fun st =>
  Ret (tt, mkH (hbuf st) (hmem st) (hconf st) (Z.max (hpeak st) (used (hmem st) + w))).

Section WithAllocator.
Context {AL : Allocator} {ME : Memory}.

(** a new block with this content *)
Definition alloc (b : block) : H slot := fun st =>
  let l := choose (hmem st) in
  let h := <[l := b]> (hmem st) in
  Ret (Ptr l, mkH (hbuf st) h (hconf st) (Z.max (hpeak st) (used h))).
(** malloc and the initialisation of the new block that follows it at once, without a
    test for NULL *)
Definition malloc (b : block) : H slot := fun st => if grants st b then alloc b st else Fault NullDeref.
(** malloc with "if (p == NULL) return NULL" and the initialisation *)
Definition try_malloc (b : block) : H slot := fun st => if grants st b then alloc b st else Ret (Nul, st).
(** whether realloc succeeds, and if so, both arrays are there for a moment; the code
    has no test for NULL before it stores the new element *)
Definition regrant (b : block) : H unit := fun st => if grants st b then spike (weight b) st else Fault NullDeref.

(** free *)
Definition free (p : slot) : H unit := fun st =>
  match p with
  | Nul => Ret (tt, st)
  | Ptr l => match hmem st !! l with
             | Some _ => Ret (tt, set_mem (delete l (hmem st)) st)
             | None => Fault BadFree
             end
  | Int _ => Fault BadFree
  end.

(** the block at an address *)
Definition load_block (p : slot) : H block := fun st =>
  match p with
  | Nul => Fault NullDeref
  | Int _ => Fault TypeConfusion
  | Ptr l => match hmem st !! l with Some b => Ret (b, st) | None => Fault DeadBlock end
  end.
Definition load_struct (p : slot) : H (list slot) :=
  b <- load_block p ;; match b with Struct ss => ret ss | Bytes _ => fail TypeConfusion end.
(** p->member or p[i] *)
Definition load (p : slot) (i : nat) : H slot :=
  ss <- load_struct p ;; match ss !! i with Some x => ret x | None => fail OobRead end.
Definition load_int (p : slot) (i : nat) : H Z :=
  x <- load p i ;; match x with Int z => ret z | _ => fail TypeConfusion end.
(** the bytes of an integer object or of a text *)
Definition load_bytes (p : slot) : H (list Z) :=
  b <- load_block p ;; match b with Bytes bs => ret bs | Struct _ => fail TypeConfusion end.
Definition store_block (p : slot) (b : block) : H unit := fun st =>
  match p with
  | Ptr l => Ret (tt, set_mem (<[l := b]> (hmem st)) st)
  | _ => Fault WildPtr
  end.
(** p->member = x or p[i] = x *)
Definition store (p : slot) (i : nat) (x : slot) : H unit :=
  ss <- load_struct p ;;
  match ss !! i with
  | Some _ => store_block p (Struct (<[i := x]> ss))
  | None => fail OobWrite
  end.
(** overwriting all bytes of an integer object *)
Definition store_bytes (p : slot) (bs : list Z) : H unit :=
  old <- load_bytes p ;;
  if (length old =? length bs)%nat then store_block p (Bytes bs) else fail OobWrite.

(** "if (p) { k }" *)
Definition if_ptr (p : slot) (k : H unit) : H unit := match p with Nul => ret tt | _ => k end.

(** "len++; arr = realloc(arr, len * sizeof(void * )); arr[len - 1] = x" for the
    members [i] (arr) and [S i] (len) of the struct at [p].  The old block is
    released before the new one is chosen, so that the choice may also be to
    leave the array where it is; for [hpeak] both are there for a moment. *)
Definition append (p : slot) (i : nat) (x : slot) : H unit :=
  n <- load_int p (S i) ;;
  store p (S i) (Int (n + 1)) ;;;
  arr <- load p i ;;
  old <- match arr with Nul => ret [] | _ => load_struct arr end ;;
  (if Z.of_nat (length old) =? n then ret tt else fail OobWrite) ;;;
  regrant (Struct (old ++ [x])) ;;;
  free arr ;;;
  arr' <- alloc (Struct (old ++ [x])) ;;
  store p i arr'.

(** "for (i = 0; i < n; i++) f(arr[i])" *)
Fixpoint for_each (n : nat) (i : nat) (arr : slot) (f : slot -> H unit) : H unit :=
  match n with
  | O => ret tt
  | S n' => x <- load arr i ;; f x ;;; for_each n' (S i) arr f
  end.

(** Fuel for walks through the heap: more than the number of live blocks. *)
Definition with_heap_fuel {A} (f : nat -> H A) : H A := fun st => f (S (size (hmem st))) st.

(** "if (p) { free_1(p->m_1); ...; free_n(p->m_n); free(p); }".  The members of a
    struct are numbered in the order in which they are freed. *)
Fixpoint free_members (p : slot) (i : nat) (fs : list (slot -> H unit)) : H unit :=
  match fs with
  | [] => ret tt
  | f :: fs' => x <- load p i ;; f x ;;; free_members p (S i) fs'
  end.
Definition free_struct (fs : list (slot -> H unit)) (p : slot) : H unit :=
  if_ptr p (free_members p 0 fs ;;; free p).

(** The idioms of the record parsers (Buf.v), on the heap.  [onerr] is what
    happens at the label "error". *)
Definition hexpect_list {A} (n : Z) (onerr : H A) (k : H A) : H A :=
  t <- lift sml_buf_get_next_type ;;
  if negb (t =? SML_TYPE_LIST) then lift set_error ;;; onerr else
  l <- lift sml_buf_get_next_length ;;
  if negb (l =? n) then lift set_error ;;; onerr else k.
Definition hfield {A} (p : slot) (i : nat) (parse : H slot) (onerr : H A) (k : H A) : H A :=
  x <- parse ;;
  store p i x ;;;
  e <- lift sml_buf_has_errors ;;
  if (e : bool) then onerr else k.
Definition hunless_skipped (k : H slot) : H slot :=
  sk <- lift sml_buf_optional_is_skipped ;;
  if negb (sk =? 0) then ret Nul else k.
Definition herr_null : H slot := lift set_error ;;; ret Nul.
(** "error: X_free(p); return NULL;" and the same after "buf->error = 1;" *)
Definition on_error (f : slot -> H unit) (p : slot) : H slot := f p ;;; ret Nul.
Definition on_error_set (f : slot -> H unit) (p : slot) : H slot := lift set_error ;;; f p ;;; ret Nul.
End WithAllocator.
