(* Facts about loops over neurons and about whole layers. *)
From Verif Require Import Base Num ActModel NeuronModel LayerModel NetModel NeuronProofs.
Local Open Scope nat_scope.

Lemma each_from_inv {A B} (f : nat -> A -> outcome (B * A)) l : forall i bs l', each_from f i l = Ok (bs, l') ->
  List.length bs = List.length l /\ List.length l' = List.length l /\
  forall j a, nth_error l j = Some a -> exists b a', nth_error bs j = Some b /\ nth_error l' j = Some a' /\ f (i + j) a = Ok (b, a').
Proof.
  induction l as [|a t IH]; intros i bs l' H; cbn in H.
  - injection H as <- <-. repeat split; auto. intros [|j] a; discriminate.
  - apply bind_Ok_inv in H as ([b a'] & Hf & H). apply bind_Ok_inv in H as ([bs' t'] & Ht & H).
    injection H as <- <-. cbn. apply IH in Ht as (L1 & L2 & Hj). repeat split; auto.
    intros [|j] a0; cbn.
    + intros [= <-]. exists b, a'. rewrite Nat.add_0_r. auto.
    + intros Hn. rewrite <- Nat.add_succ_comm. apply Hj; auto.
Qed.
Lemma each_inv {A B} (f : nat -> A -> outcome (B * A)) l bs l' : each f l = Ok (bs, l') ->
  List.length bs = List.length l /\ List.length l' = List.length l /\
  forall j a, nth_error l j = Some a -> exists b a', nth_error bs j = Some b /\ nth_error l' j = Some a' /\ f j a = Ok (b, a').
Proof. intros H. apply (each_from_inv f l 0). exact H. Qed.

Lemma each_from_ok {A B} (f : nat -> A -> outcome (B * A)) l : forall i,
  (forall j a, nth_error l j = Some a -> exists b a', f (i + j) a = Ok (b, a')) ->
  exists bs l', each_from f i l = Ok (bs, l').
Proof.
  induction l as [|a t IH]; intros i H; cbn; eauto.
  destruct (H 0 a eq_refl) as (b & a' & E). rewrite Nat.add_0_r in E. rewrite E. cbn.
  destruct (IH (S i)) as (bs & l' & E').
  { intros j x Hx. rewrite Nat.add_succ_comm. apply H. exact Hx. }
  rewrite E'. cbn. eauto.
Qed.
Lemma each_ok {A B} (f : nat -> A -> outcome (B * A)) l :
  (forall j a, nth_error l j = Some a -> exists b a', f j a = Ok (b, a')) ->
  exists bs l', each f l = Ok (bs, l').
Proof. intros H. apply (each_from_ok f l 0). exact H. Qed.

(* explicit form *)
Lemma each_from_map {A B} (f : nat -> A -> outcome (B * A)) (g : nat -> A -> B) (h : nat -> A -> A) l : forall i,
  (forall j a, nth_error l j = Some a -> f (i + j) a = Ok (g (i + j) a, h (i + j) a)) ->
  each_from f i l = Ok (map (fun p => g (fst p) (snd p)) (combine (seq i (List.length l)) l),
                        map (fun p => h (fst p) (snd p)) (combine (seq i (List.length l)) l)).
Proof.
  induction l as [|a t IH]; intros i H; cbn; auto.
  pose proof (H 0 a eq_refl) as E. rewrite Nat.add_0_r in E. rewrite E. cbn.
  rewrite IH. { reflexivity. }
  intros j x Hx. rewrite Nat.add_succ_comm. apply H. exact Hx.
Qed.
Lemma each_map_plain {A B} (f : nat -> A -> outcome (B * A)) (g : A -> B) (h : A -> A) l :
  (forall j a, nth_error l j = Some a -> f j a = Ok (g a, h a)) ->
  each f l = Ok (map g l, map h l).
Proof.
  intros H. unfold each. rewrite (each_from_map f (fun _ => g) (fun _ => h)) by (intros j a Ha; apply H; auto).
  f_equal. f_equal.
  - clear H. generalize 0 as i. induction l as [|a t IH]; intros i; cbn; auto. f_equal; auto.
  - clear H. generalize 0 as i. induction l as [|a t IH]; intros i; cbn; auto. f_equal; auto.
Qed.
