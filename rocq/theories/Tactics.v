(** Proof automation and generic list/number lemmas. *)
From Coq Require Export ZArith Lia ZifyBool ZifyNat ZifyN.
From Verif Require Import Base.
Open Scope N_scope.
Ltac Zify.zify_post_hook ::= Z.div_mod_to_equations.

Global Arguments N.add : simpl never.
Global Arguments N.sub : simpl never.
Global Arguments N.mul : simpl never.
Global Arguments N.div : simpl never.
Global Arguments N.modulo : simpl never.
Global Arguments N.pow : simpl never.
Global Arguments N.of_nat : simpl never.
Global Arguments N.to_nat : simpl never.
Global Arguments N.leb : simpl never.
Global Arguments N.ltb : simpl never.
Global Arguments N.eqb : simpl never.
Global Arguments N.land : simpl never.
Global Arguments N.lor : simpl never.
Global Arguments N.lxor : simpl never.
Global Arguments N.shiftl : simpl never.
Global Arguments N.shiftr : simpl never.
Global Arguments be_bytes : simpl never.

Ltac pos_lit p :=
  match p with xH => idtac | xO ?q => pos_lit q | xI ?q => pos_lit q end.
Ltac N_lit t := match t with N0 => idtac | Npos ?p => pos_lit p end.
(** Evaluate arithmetic on literals. *)
Ltac eval_lit t :=
  let v := eval vm_compute in t in
  N_lit v; progress change t with v in *.
Ltac pows :=
  repeat match goal with
  | |- context [N.pow ?a ?b] => N_lit a; N_lit b; eval_lit (N.pow a b)
  | |- context [N.sub ?a ?b] => N_lit a; N_lit b; eval_lit (N.sub a b)
  | |- context [N.mul ?a ?b] => N_lit a; N_lit b; eval_lit (N.mul a b)
  | |- context [N.add ?a ?b] => N_lit a; N_lit b; eval_lit (N.add a b)
  | H : context [N.pow ?a ?b] |- _ => N_lit a; N_lit b; eval_lit (N.pow a b)
  | H : context [N.sub ?a ?b] |- _ => N_lit a; N_lit b; eval_lit (N.sub a b)
  | H : context [N.mul ?a ?b] |- _ => N_lit a; N_lit b; eval_lit (N.mul a b)
  | H : context [N.add ?a ?b] |- _ => N_lit a; N_lit b; eval_lit (N.add a b)
  end.

Lemma len_nil {A} : @len A [] = 0. Proof. reflexivity. Qed.
Lemma len_cons {A} (x : A) l : len (x :: l) = len l + 1.
Proof. unfold len; cbn [length]; lia. Qed.
Lemma len_app {A} (a b : list A) : len (a ++ b) = len a + len b.
Proof. unfold len; rewrite app_length; lia. Qed.
Lemma len_0_nil {A} (l : list A) : len l = 0 -> l = [].
Proof. destruct l; [auto|]. rewrite len_cons; lia. Qed.
Global Hint Rewrite @len_nil @len_cons @len_app : len.

Lemma firstn_app_exact {A} (a b : list A) n : n = length a -> firstn n (a ++ b) = a.
Proof. intros ->. rewrite firstn_app, Nat.sub_diag, firstn_all. cbn. apply app_nil_r. Qed.
Lemma skipn_app_exact {A} (a b : list A) n : n = length a -> skipn n (a ++ b) = b.
Proof. intros ->. rewrite skipn_app, Nat.sub_diag, skipn_all. reflexivity. Qed.

Lemma bind_ok {A B} (m : outcome A) (k : A -> outcome B) b :
  bind m k = Ok b -> exists a, m = Ok a /\ k a = Ok b.
Proof. destruct m; cbn; try discriminate. eauto. Qed.

(** Split a chain of [let?] that is known to succeed. *)
Ltac inv_bind :=
  repeat match goal with
  | H : bind _ _ = Ok _ |- _ =>
      let a := fresh "a" in let E := fresh "E" in
      apply bind_ok in H; destruct H as [a [E H]];
      try (destruct a as [? ?]); cbn beta iota in H
  end.
