(** tools/prettify_bin.py: the crate's tool for looking at binary files. *)
From Coq Require Import Ascii.
From Verif Require Import Base LogText.
Local Open Scope char_scope.

(** [bytes.hex()]: two lower-case digits per byte. *)
Definition hex_byte (b : N) : text := [hex_digit (N.to_nat (b / 16)); hex_digit (N.to_nat (b mod 16))].
Definition hex (data : list N) : text := flat_map hex_byte data.

(** prettify_bin.py:6 [[data[i:(i+16)].hex() for i in range(0, len(data), 16)]].
    [n] bounds the number of slices; [lines_of] gives enough. *)
Fixpoint slices (n : nat) (data : list N) : list text :=
  match n, data with
  | O, _ | _, [] => []
  | S n, _ => hex (firstn 16 data) :: slices n (skipn 16 data)
  end.
Definition lines_of (data : list N) : list text := slices (length data) data.

(** [xs[::2]] and [xs[1::2]]. *)
Fixpoint evens {A} (xs : list A) : list A :=
  match xs with
  | [] => []
  | [x] => [x]
  | x :: _ :: xs => x :: evens xs
  end.
Definition odds {A} (xs : list A) : list A := evens (skipn 1 xs).

(** prettify_bin.py:7-9. *)
Definition formatted_lines (lines : list text) : list text :=
  map (fun '(x, y) => x ++ " " :: y) (combine (evens lines) (odds lines)) ++
  (if Nat.odd (length lines) then [last lines []] else []).

(** ['\n'.join(...)]. *)
Fixpoint join_lines (ls : list text) : text :=
  match ls with
  | [] => []
  | [l] => l
  | l :: ls => l ++ newline :: join_lines ls
  end.
(** prettify_bin.py:5-11: what is written; [print] adds the end of the line. *)
Definition pretty (data : list N) : text := join_lines (formatted_lines (lines_of data)) ++ [newline].

(** Files by name; a name that cannot be read has no content.  [denied] names
    cannot be opened for writing. *)
Definition files := string -> option (list N).
Definition write (fs : files) (name : string) (content : list N) : files :=
  fun p => if String.eqb p name then Some content else fs p.
Definition bytes_of (t : text) : list N := map N_of_ascii t.
Definition pretty_name (name : string) : string := (name ++ ".pretty")%string.

(** prettify_bin.py:4-11 [reformat_bin]; [None] is an exception. *)
Definition reformat_bin (denied : string -> bool) (fs : files) (name : string) : option files :=
  match fs name with
  | None => None
  | Some data =>
      if denied (pretty_name name) then None
      else Some (write fs (pretty_name name) (bytes_of (pretty data)))
  end.

(** prettify_bin.py:18-24: every exception is caught.  (What is reported is not
    modelled.) *)
Fixpoint prettify (denied : string -> bool) (fs : files) (names : list string) : files :=
  match names with
  | [] => fs
  | name :: names =>
      prettify denied (match reformat_bin denied fs name with Some fs' => fs' | None => fs end) names
  end.
