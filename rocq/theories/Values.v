(** Values stored in a vault, their run-time types and the order used by the trees. *)
From stdpp Require Export prelude gmap strings sorting.
From Coq Require Import Ascii String ZArith.
From Coq Require Export Lia.
Open Scope Z_scope.

(** Integer types with their own [ToString] overloads: Source/Strings/ToString.h 90-199. *)
Inductive ity := I8 | U8 | I16 | U16 | I32 | U32 | I64 | U64.

(** Run-time type tags, standing for [std::type_index]. [TOther n] stands for any further C++ type
    (float, double, user classes): Source/DataSaver.h 149 ([typeid(data)]). *)
Inductive vtype := TInt (t : ity) | TBool | TStr | TOther (n : nat).

(** A stored value together with its type: the content of a [DataSaver], Source/DataSaver.h 139-180.
    Simplification: values of a type [TOther n] are abstracted to an integer that carries their total
    order (for float/double this leaves out NaN). *)
Inductive value :=
  | VInt (t : ity) (z : Z)
  | VBool (b : bool)
  | VStr (s : string)
  | VOther (n : nat) (z : Z).

Global Instance ity_eq_dec : EqDecision ity.
Proof. solve_decision. Defined.
Global Instance vtype_eq_dec : EqDecision vtype.
Proof. solve_decision. Defined.
Global Instance value_eq_dec : EqDecision value.
Proof. solve_decision. Defined.

(** [typeid] of a stored value: Source/DataSaver.h 149. *)
Definition vty (v : value) : vtype :=
  match v with
  | VInt t _ => TInt t | VBool _ => TBool | VStr _ => TStr | VOther n _ => TOther n
  end.

(** The value-initialised [T{}]: Source/Vault.hpp 60, 473, 562, 570. *)
Definition vzero (t : vtype) : value :=
  match t with
  | TInt t => VInt t 0 | TBool => VBool false | TStr => VStr EmptyString | TOther n => VOther n 0
  end.

(** The result of a user function returning [T]: C++ typing makes it a [T]; a model function that
    returns something else is replaced by [T{}]. *)
Definition vcast (t : vtype) (v : value) : value := if decide (vty v = t) then v else vzero t.

(** Range of an integer type (two's complement). *)
Definition ibits (t : ity) : Z :=
  match t with I8 | U8 => 8 | I16 | U16 => 16 | I32 | U32 => 32 | I64 | U64 => 64 end.
Definition isigned (t : ity) : bool :=
  match t with I8 | I16 | I32 | I64 => true | _ => false end.
Definition imin (t : ity) : Z := if isigned t then - 2 ^ (ibits t - 1) else 0.
Definition imax (t : ity) : Z := if isigned t then 2 ^ (ibits t - 1) - 1 else 2 ^ ibits t - 1.

(** [operator<] of the key type, as used by std::map / std::multimap in Source/Map.h 441-509:
    integers by value, false < true, std::string lexicographically by unsigned byte.
    Encoded as the lexicographic order of a list of integers; values of different types never meet
    in one tree, the first component just makes the order total. *)
Definition ityn (t : ity) : Z :=
  match t with I8 => 0 | U8 => 1 | I16 => 2 | U16 => 3 | I32 => 4 | U32 => 5 | I64 => 6 | U64 => 7 end.
Definition byte (c : ascii) : Z := Z.of_nat (nat_of_ascii c).
Definition vkey (v : value) : list Z :=
  match v with
  | VInt t z => [0; ityn t; z]
  | VBool b => [1; if b then 1 else 0]
  | VStr s => 2 :: (byte <$> list_ascii_of_string s)
  | VOther n z => [3; Z.of_nat n; z]
  end.
Fixpoint lexltb (a b : list Z) : bool :=
  match a, b with
  | _, [] => false
  | [], _ :: _ => true
  | x :: a', y :: b' => if x <? y then true else if y <? x then false else lexltb a' b'
  end.
Definition vltb (a b : value) : bool := lexltb (vkey a) (vkey b).

(** Propositional forms. *)
Definition vlt (a b : value) : Prop := vltb a b = true.
Definition vle (a b : value) : Prop := vltb b a = false.
Global Instance vlt_dec a b : Decision (vlt a b).
Proof. unfold vlt; apply _. Defined.
Global Instance vle_dec a b : Decision (vle a b).
Proof. unfold vle; apply _. Defined.

Lemma lexltb_irrefl a : lexltb a a = false.
Proof. induction a as [|x a IH]; cbn [lexltb]; [done|]. by rewrite Z.ltb_irrefl. Qed.
Lemma lexltb_trans a b c : lexltb a b = true -> lexltb b c = true -> lexltb a c = true.
Proof.
  revert b c. induction a as [|x a IH]; intros [|y b] [|z c]; cbn [lexltb]; try done.
  destruct (Z.ltb_spec x y), (Z.ltb_spec y z), (Z.ltb_spec x z),
    (Z.ltb_spec y x), (Z.ltb_spec z y), (Z.ltb_spec z x); try done; try lia; eauto.
Qed.
Lemma lexltb_total a b : lexltb a b = false -> lexltb b a = false -> a = b.
Proof.
  revert b. induction a as [|x a IH]; intros [|y b]; cbn [lexltb]; try done.
  destruct (Z.ltb_spec x y), (Z.ltb_spec y x); try done; try lia. intros ??. f_equal; [lia|eauto].
Qed.

Lemma byte_inj c d : byte c = byte d -> c = d.
Proof.
  unfold byte. intros H. apply Nat2Z.inj in H.
  rewrite <- (ascii_nat_embedding c), <- (ascii_nat_embedding d). by rewrite H.
Qed.
Lemma vkey_inj a b : vkey a = vkey b -> a = b.
Proof.
  destruct a as [t z|b1|s|n z], b as [t' z'|b2|s'|n' z']; cbn [vkey]; intros H; try discriminate.
  - injection H as H1 H2. subst. destruct t, t'; try discriminate; done.
  - injection H as H. destruct b1, b2; done.
  - injection H as H. f_equal. rewrite <- (string_of_list_ascii_of_string s), <- (string_of_list_ascii_of_string s').
    f_equal. revert H. generalize (list_ascii_of_string s') as l'. generalize (list_ascii_of_string s) as l.
    induction l as [|c l IH]; intros [|d l']; cbn; try done. intros H. injection H as H1 H2.
    f_equal; [by apply byte_inj|by apply IH].
  - injection H as H1 H2. f_equal; lia.
Qed.

Lemma vlt_irrefl a : ~ vlt a a.
Proof. unfold vlt, vltb. rewrite lexltb_irrefl. done. Qed.
Lemma vlt_trans a b c : vlt a b -> vlt b c -> vlt a c.
Proof. apply lexltb_trans. Qed.
Lemma vle_refl a : vle a a.
Proof. unfold vle, vltb. apply lexltb_irrefl. Qed.
Lemma vlt_vle a b : vlt a b -> vle a b.
Proof.
  unfold vle. intros H. destruct (vltb b a) eqn:E; [|done].
  exfalso. apply (vlt_irrefl a). by eapply vlt_trans.
Qed.
Lemma vle_antisym a b : vle a b -> vle b a -> a = b.
Proof. unfold vle, vltb. intros. apply vkey_inj. by apply lexltb_total. Qed.
Lemma not_vlt a b : ~ vlt a b <-> vle b a.
Proof. unfold vlt, vle. by destruct (vltb a b). Qed.
Lemma not_vle a b : ~ vle a b <-> vlt b a.
Proof. unfold vlt, vle. by destruct (vltb b a). Qed.
Lemma vle_cases a b : vle a b -> vlt a b \/ a = b.
Proof.
  intros H. destruct (decide (vlt a b)) as [|Hn]; [by left|right].
  apply not_vlt in Hn. by apply vle_antisym.
Qed.
Lemma vlt_le_trans a b c : vlt a b -> vle b c -> vlt a c.
Proof. intros H1 H2. apply vle_cases in H2 as [H2| ->]; [by eapply vlt_trans|done]. Qed.
Lemma vle_lt_trans a b c : vle a b -> vlt b c -> vlt a c.
Proof. intros H1 H2. apply vle_cases in H1 as [H1| ->]; [by eapply vlt_trans|done]. Qed.
Lemma vle_trans a b c : vle a b -> vle b c -> vle a c.
Proof.
  intros H1 H2. apply vle_cases in H1 as [H1| ->]; [|done].
  apply vlt_vle. by eapply vlt_le_trans.
Qed.
Lemma vlt_not_eq a b : vlt a b -> a <> b.
Proof. intros H ->. by eapply vlt_irrefl. Qed.
Lemma vle_or a b : vle a b \/ vlt b a.
Proof. unfold vle, vlt. destruct (vltb b a); auto. Qed.
