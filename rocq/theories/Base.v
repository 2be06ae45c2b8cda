(** Base vocabulary of the model: errors, results, machine arithmetic. *)
From Coq Require Export String List NArith Bool.
Export ListNotations.
Global Open Scope string_scope.
Global Open Scope list_scope.
Global Open Scope N_scope.

(** src/error.rs:2-21 [Error].  [InternalError] keeps its message. *)
Inductive error :=
| NoError
| InternalError (msg : string)
| ConnectionRefused
| FlowControlError
| StreamLimitError
| StreamStateError
| FinalSizeError
| FrameEncodingError
| TransportParameterError
| ConnectionIdLimitError
| ProtocolViolation
| InvalidToken
| ApplicationError
| CryptoBufferExceeded
| KeyUpdateError
| AeadLimitReached
| NoViablePath.

(** src/error.rs:24-44 [Error::to_error_byte]. *)
Definition to_error_byte (e : error) : N :=
  match e with
  | NoError => 0x00
  | InternalError _ => 0x01
  | ConnectionRefused => 0x02
  | FlowControlError => 0x03
  | StreamLimitError => 0x04
  | StreamStateError => 0x05
  | FinalSizeError => 0x06
  | FrameEncodingError => 0x07
  | TransportParameterError => 0x08
  | ConnectionIdLimitError => 0x09
  | ProtocolViolation => 0x0a
  | InvalidToken => 0x0b
  | ApplicationError => 0x0c
  | CryptoBufferExceeded => 0x0d
  | KeyUpdateError => 0x0e
  | AeadLimitReached => 0x0f
  | NoViablePath => 0x10
  end.

(** src/error.rs:47 [Result<T>], extended with the two ways a Rust call can
    fail to return: a panic, and not terminating ([Diverge], only produced by
    loops whose fuel runs out). *)
Inductive outcome (A : Type) : Type :=
| Ok (a : A)
| Err (e : error)
| Panic (why : string)
| Diverge.
Arguments Ok {A} a.
Arguments Err {A} e.
Arguments Panic {A} why.
Arguments Diverge {A}.

(** The [?] operator (sequencing; panics and divergence propagate). *)
Definition bind {A B} (m : outcome A) (k : A -> outcome B) : outcome B :=
  match m with
  | Ok a => k a
  | Err e => Err e
  | Panic w => Panic w
  | Diverge => Diverge
  end.

Notation "'let?' x ':=' m 'in' k" := (bind m (fun x => k))
  (at level 200, x pattern, m at level 100, k at level 200, right associativity).

(** [Result::unwrap] / [Option::unwrap]: [Err] becomes a panic. *)
Definition unwrap {A} (m : outcome A) : outcome A :=
  match m with
  | Err _ => Panic "unwrap on Err"
  | _ => m
  end.

(** [Option::ok_or]. *)
Definition ok_or {A} (o : option A) (e : error) : outcome A :=
  match o with Some a => Ok a | None => Err e end.

Definition is_ok {A} (m : outcome A) : bool :=
  match m with Ok _ => true | _ => false end.

(** Machine integers: 64-bit [u64]/[usize].  [oc] = "overflow checks enabled"
    (true in the dev profile, false in the release profile). *)
Definition two64 : N := 0x10000000000000000.

Definition add64 (oc : bool) (a b : N) : outcome N :=
  if a + b <? two64 then Ok (a + b)
  else if oc then Panic "attempt to add with overflow"
  else Ok ((a + b) mod two64).

Definition sub64 (oc : bool) (a b : N) : outcome N :=
  if b <=? a then Ok (a - b)
  else if oc then Panic "attempt to subtract with overflow"
  else Ok (a + two64 - b).

(** [x << k] on a [w]-bit integer, [k < w]: bits shifted out are lost. *)
Definition shl (w x k : N) : N := N.shiftl x k mod 2 ^ w.

(** [x as uW] for an unsigned [x]. *)
Definition cast (w x : N) : N := x mod 2 ^ w.

(** [to_be_bytes] on a [k]-byte unsigned integer. *)
Fixpoint be_bytes (k : nat) (x : N) : list N :=
  match k with
  | O => []
  | S k' => be_bytes k' (x / 256) ++ [x mod 256]
  end.

(** [from_be_bytes]. *)
Definition from_be_bytes (bs : list N) : N :=
  fold_left (fun acc b => acc * 256 + b) bs 0.

(** Vec::len as u64/usize. *)
Definition len {A} (l : list A) : N := N.of_nat (length l).
