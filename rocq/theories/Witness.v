(* Helpers to establish computed witnesses over binary32 without normalising types that mention the
   arithmetic record. *)
From Coq Require Import SpecFloat.
From Verif Require Import Base Num.
Local Open Scope list_scope.

Definition sf_eqb (a b : spec_float) : bool :=
  match a, b with
  | S754_zero s, S754_zero s' => Bool.eqb s s'
  | S754_infinity s, S754_infinity s' => Bool.eqb s s'
  | S754_nan, S754_nan => true
  | S754_finite s m e, S754_finite s' m' e' => Bool.eqb s s' && Pos.eqb m m' && Z.eqb e e'
  | _, _ => false
  end.
Lemma sf_eqb_eq a b : sf_eqb a b = true <-> a = b.
Proof.
  destruct a, b; cbn; split; intros H; try discriminate; try reflexivity.
  - apply eqb_prop in H. now subst.
  - injection H as ->. apply eqb_reflx.
  - apply eqb_prop in H. now subst.
  - injection H as ->. apply eqb_reflx.
  - apply andb_prop in H as [H H3]. apply andb_prop in H as [H1 H2].
    apply eqb_prop in H1. apply Pos.eqb_eq in H2. apply Z.eqb_eq in H3. now subst.
  - injection H as -> -> ->. now rewrite eqb_reflx, Pos.eqb_refl, Z.eqb_refl.
Qed.

Fixpoint list_eqb {A} (eqb : A -> A -> bool) (l l' : list A) : bool :=
  match l, l' with
  | [], [] => true
  | a :: t, b :: t' => eqb a b && list_eqb eqb t t'
  | _, _ => false
  end.
Lemma list_eqb_eq {A} (eqb : A -> A -> bool) :
  (forall a b, eqb a b = true <-> a = b) -> forall l l', list_eqb eqb l l' = true <-> l = l'.
Proof.
  intros H. induction l as [|a l IH]; intros [|b l']; cbn; split; intros E; try discriminate; auto.
  - apply andb_prop in E as [E1 E2]. apply H in E1. apply IH in E2. now subst.
  - injection E as -> ->. rewrite (proj2 (H b b) eq_refl). now apply IH.
Qed.
Definition sfl_eqb : list spec_float -> list spec_float -> bool := list_eqb sf_eqb.
Lemma sfl_eqb_eq l l' : sfl_eqb l l' = true <-> l = l'.
Proof. apply list_eqb_eq, sf_eqb_eq. Qed.

Definition run_check {A} (x : outcome A) (k : A -> bool) : bool := match x with Ok a => k a | _ => false end.
Lemma run_check_ex {A} (x : outcome A) k : run_check x k = true -> exists a, x = Ok a /\ k a = true.
Proof. destruct x; cbn; intros; try discriminate; eauto. Qed.

Definition row_is {B} (x : outcome (list (@F N32) * B)) (l : list (@F N32)) : bool := run_check x (fun p => sfl_eqb (fst p) l).
Lemma row_is_ok {B} (x : outcome (list (@F N32) * B)) l : row_is x l = true -> exists d, x = Ok (l, d).
Proof.
  unfold row_is. intros H. apply run_check_ex in H as ([r d] & -> & H). apply sfl_eqb_eq in H. cbn in H. subst. eauto.
Qed.
Definition nat_is (x : outcome nat) (n : nat) : bool := run_check x (fun m => Nat.eqb m n).
Lemma nat_is_ok x n : nat_is x n = true -> x = Ok n.
Proof. unfold nat_is. intros H. apply run_check_ex in H as (m & -> & H). apply Nat.eqb_eq in H. now subst. Qed.
Definition bool_is (x : outcome bool) (n : bool) : bool := run_check x (fun m => Bool.eqb m n).
Lemma bool_is_ok x n : bool_is x n = true -> x = Ok n.
Proof. unfold bool_is. intros H. apply run_check_ex in H as (m & -> & H). apply eqb_prop in H. now subst. Qed.
Definition row32_is (x : outcome (list (@F N32))) (l : list (@F N32)) : bool := run_check x (fun p => sfl_eqb p l).
Lemma row32_is_ok x l : row32_is x l = true -> x = Ok l.
Proof. unfold row32_is. intros H. apply run_check_ex in H as (m & -> & H). apply sfl_eqb_eq in H. now subst. Qed.
Definition f32_is (x : outcome (@F N32)) (v : @F N32) : bool := run_check x (fun p => sf_eqb p v).
Lemma f32_is_ok x l : f32_is x l = true -> x = Ok l.
Proof. unfold f32_is. intros H. apply run_check_ex in H as (m & -> & H). apply sf_eqb_eq in H. now subst. Qed.
Lemma is_ub_ok {A} (x : outcome A) : is_ub x = true -> x = UB.
Proof. destruct x; cbn; congruence. Qed.

(* unpack a computed check into existential witnesses *)
Ltac unpack H :=
  repeat match type of H with
  | run_check _ _ = true =>
      let a := fresh "w" in let E := fresh "E" in apply run_check_ex in H as (a & E & H)
  | (_ && _)%bool = true => let H' := fresh "K" in apply andb_prop in H as [H' H]
  end.
(* solve the leaves *)
Ltac leaf :=
  match goal with
  | H : row_is ?x _ = true |- exists _, ?x = _ => exact (row_is_ok _ _ H)
  | H : nat_is ?x _ = true |- ?x = _ => exact (nat_is_ok _ _ H)
  | H : bool_is ?x _ = true |- ?x = _ => exact (bool_is_ok _ _ H)
  | H : row32_is ?x _ = true |- ?x = _ => exact (row32_is_ok _ _ H)
  | H : f32_is ?x _ = true |- ?x = _ => exact (f32_is_ok _ _ H)
  | H : is_ub ?x = true |- ?x = UB => exact (is_ub_ok _ H)
  | H : ?x = Ok _ |- ?x = _ => exact H
  end.
(* [by_compute b]: check the closed boolean b with the virtual machine and unpack it *)
Ltac unpack_all :=
  repeat match goal with
  | H : run_check _ _ = true |- _ =>
      let a := fresh "w" in let E := fresh "E" in apply run_check_ex in H as (a & E & H)
  | H : (_ && _)%bool = true |- _ => let H' := fresh "K" in apply andb_prop in H as [H' H]
  end.
Ltac by_compute b := let H := fresh "H" in assert (H : b = true) by (vm_compute; reflexivity); unpack_all.
