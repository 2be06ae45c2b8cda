(** Model of the raw buffer allocators of src/utils.rs.  Nothing in the crate
    calls them. *)
From Verif Require Import Base Utils.

(** What the two functions look at of their type parameter [T]. *)
Record ty := Ty { t_size : N; t_align : N }.

(** A byte of memory: [None] is not initialised. *)
Definition cell := option N.

(** What the returned box is.  [Undefined] stands for behaviour the language
    leaves undefined: asking the allocator for no bytes, and a box made of a
    null pointer. *)
Inductive buffer :=
| Buffer (n : N) (memory : list cell)
| Undefined (why : string).

(** The allocator decides, by size and alignment, whether it has memory; when
    it has not it returns a null pointer. *)
Definition allocator := N -> N -> bool.

(** [std::alloc::alloc_zeroed] and [std::alloc::alloc]. *)
Definition sys_alloc_zeroed (a : allocator) (size align : N) : option (list cell) :=
  if a size align then Some (repeat (Some 0) (N.to_nat size)) else None.
Definition sys_alloc (a : allocator) (size align : N) : option (list cell) :=
  if a size align then Some (repeat None (N.to_nat size)) else None.

(** [Layout::array::<T>(len).unwrap()]: sizes above isize::MAX, rounded up to
    the alignment, are refused; otherwise the size. *)
Definition layout_array (t : ty) (n : N) : outcome N :=
  if negb (t_size t =? 0) && ((2 ^ 63 - t_align t) / t_size t <? n)
  then Panic "called `Result::unwrap()` on an `Err` value: LayoutError"
  else Ok (t_size t * n).

Definition box_from (n size : N) (p : option (list cell)) : buffer :=
  if size =? 0 then Undefined "allocation of no bytes"
  else match p with
       | None => Undefined "box made of a null pointer"
       | Some m => Buffer n m
       end.

(** utils.rs:467-475 [calloc_box_buffer]. *)
Definition calloc_box_buffer (a : allocator) (t : ty) (n : N) : outcome buffer :=
  if n =? 0 then Ok (Buffer 0 [])
  else
    let? size := layout_array t n in
    Ok (box_from n size (sys_alloc_zeroed a size (t_align t))).

(** utils.rs:477-485 [alloc_box_buffer]. *)
Definition alloc_box_buffer (a : allocator) (t : ty) (n : N) : outcome buffer :=
  if n =? 0 then Ok (Buffer 0 [])
  else
    let? size := layout_array t n in
    Ok (box_from n size (sys_alloc a size (t_align t))).

(** utils.rs:426-443 [var_bytes_from_stream] again, with what it prints: a line
    when the stream ends early.  [out] says whether printing works; println!
    panics if it does not.  First the line printed, then the result. *)
Fixpoint var_bytes_printing_loop (out : bool) (s : stream) (n i : N) : list N * outcome (list N * stream) :=
  if n =? 0 then ([], Ok ([], s))
  else
    match s with
    | [] => if out then ([i], Err (InternalError "not enough bytes for var_bytes"))
            else ([], Panic "failed printing to stdout")
    | b :: s' =>
        let (ls, r) := var_bytes_printing_loop out s' (n - 1) (i + 1) in
        (ls, let? (bs, rest) := r in Ok (b :: bs, rest))
    end.
Definition var_bytes_printing (out : bool) (n : N) (s : stream) : list N * outcome (list N * stream) :=
  var_bytes_printing_loop out s n 0.
