(* Base definitions shared by all model files: outcomes of C++ calls and checked vector access. *)
From Coq Require Export String.
From Coq Require Export Arith ZArith Lia Bool List.
Export ListNotations.
Local Open Scope nat_scope.

(* The outcome of a C++ call: a value, a thrown exception (its message), or undefined behaviour
   (out-of-range vector access, back() of an empty vector, division by zero, signed overflow). *)
Inductive outcome (A : Type) : Type :=
| Ok : A -> outcome A
| Throw : string -> outcome A
| UB : outcome A.
Arguments Ok {A} _.
Arguments Throw {A} _.
Arguments UB {A}.

Definition bind {A B} (x : outcome A) (f : A -> outcome B) : outcome B :=
  match x with Ok a => f a | Throw s => Throw s | UB => UB end.

Declare Scope outcome_scope.
Delimit Scope outcome_scope with outcome.
Notation "'let*' x ':=' e1 'in' e2" := (bind e1 (fun x => e2))
  (at level 200, x pattern, e1 at level 100, e2 at level 200, right associativity) : outcome_scope.

Definition is_ok {A} (x : outcome A) : bool := match x with Ok _ => true | _ => false end.
Definition is_throw {A} (x : outcome A) : bool := match x with Throw _ => true | _ => false end.
Definition is_ub {A} (x : outcome A) : bool := match x with UB => true | _ => false end.

(* std::vector::operator[] : out of range is undefined behaviour. *)
Definition lget {A} (l : list A) (i : nat) : outcome A :=
  match nth_error l i with Some a => Ok a | None => UB end.

(* the same with a signed index *)
Definition lgetZ {A} (l : list A) (i : Z) : outcome A :=
  if (i <? 0)%Z then UB else lget l (Z.to_nat i).

(* plain replacement of a cell; leaves the list unchanged when out of range (callers check) *)
Fixpoint replace {A} (l : list A) (i : nat) (x : A) : list A :=
  match l, i with
  | [], _ => []
  | _ :: t, O => x :: t
  | a :: t, S j => a :: replace t j x
  end.

(* v[i] = x : out of range is undefined behaviour. *)
Definition lset {A} (l : list A) (i : nat) (x : A) : outcome (list A) :=
  if i <? List.length l then Ok (replace l i x) else UB.

Definition lsetZ {A} (l : list A) (i : Z) (x : A) : outcome (list A) :=
  if (i <? 0)%Z then UB else lset l (Z.to_nat i) x.

(* for (i : idx) body : sequential loop over a list of indices, stops at the first exception / UB *)
Fixpoint ofold {A S} (f : S -> A -> outcome S) (l : list A) (s : S) : outcome S :=
  match l with
  | [] => Ok s
  | a :: t => bind (f s a) (fun s' => ofold f t s')
  end.

Fixpoint omap {A B} (f : A -> outcome B) (l : list A) : outcome (list B) :=
  match l with
  | [] => Ok []
  | a :: t => bind (f a) (fun b => bind (omap f t) (fun r => Ok (b :: r)))
  end.

(* std::ranges::transform(v1, v2, out, op) : stops at the shorter range *)
Fixpoint zipwith {A B C} (f : A -> B -> C) (l1 : list A) (l2 : list B) : list C :=
  match l1, l2 with
  | a :: t1, b :: t2 => f a b :: zipwith f t1 t2
  | _, _ => []
  end.

(* ------- elementary facts ------- *)
Lemma bind_Ok {A B} (a : A) (f : A -> outcome B) : bind (Ok a) f = f a.
Proof. reflexivity. Qed.

Lemma bind_Ok_inv {A B} (x : outcome A) (f : A -> outcome B) b :
  bind x f = Ok b -> exists a, x = Ok a /\ f a = Ok b.
Proof. destruct x; cbn; intros H; try discriminate; eauto. Qed.

Lemma lget_Ok {A} (l : list A) i a : lget l i = Ok a <-> nth_error l i = Some a.
Proof. unfold lget; destruct (nth_error l i); split; congruence. Qed.

Lemma lget_in_range {A} (l : list A) i : i < List.length l -> exists a, lget l i = Ok a.
Proof.
  intros H. unfold lget. destruct (nth_error l i) eqn:E; eauto.
  apply nth_error_None in E; lia.
Qed.

Lemma lget_nth {A} (l : list A) i d : i < List.length l -> lget l i = Ok (nth i l d).
Proof. intros H. apply lget_Ok. apply nth_error_nth'. exact H. Qed.

Lemma replace_length {A} (l : list A) i x : List.length (replace l i x) = List.length l.
Proof. revert i; induction l as [|a t IH]; intros [|i]; cbn; auto. Qed.

Lemma nth_error_replace {A} (l : list A) i x j :
  nth_error (replace l i x) j =
  if Nat.eqb j i then (if Nat.ltb i (List.length l) then Some x else None) else nth_error l j.
Proof.
  revert i j; induction l as [|a t IH]; intros i j; cbn.
  - destruct j, i; cbn; try reflexivity; destruct (Nat.eqb j i); reflexivity.
  - destruct i as [|i], j as [|j]; cbn; try reflexivity.
    rewrite IH. reflexivity.
Qed.

Lemma nth_replace {A} (l : list A) i x j d :
  nth j (replace l i x) d = if Nat.eqb j i then (if Nat.ltb i (List.length l) then x else d) else nth j l d.
Proof.
  revert i j; induction l as [|a t IH]; intros i j; cbn.
  - destruct j, i; cbn; try reflexivity; destruct (Nat.eqb j i); reflexivity.
  - destruct i as [|i], j as [|j]; cbn; try reflexivity.
    rewrite IH. reflexivity.
Qed.

Lemma lset_Ok {A} (l l' : list A) i x :
  lset l i x = Ok l' <-> i < List.length l /\ l' = replace l i x.
Proof.
  unfold lset; destruct (Nat.ltb_spec i (List.length l)); split; intros H'; try discriminate.
  - injection H' as <-; auto.
  - destruct H' as [_ ->]; reflexivity.
  - lia.
Qed.

Lemma ofold_app {A S} (f : S -> A -> outcome S) l1 l2 s :
  ofold f (l1 ++ l2) s = bind (ofold f l1 s) (ofold f l2).
Proof.
  revert s; induction l1 as [|a t IH]; intros s; cbn; auto.
  destruct (f s a); cbn; auto.
Qed.

Lemma zipwith_length {A B C} (f : A -> B -> C) l1 l2 :
  List.length (zipwith f l1 l2) = Nat.min (List.length l1) (List.length l2).
Proof. revert l2; induction l1 as [|a t IH]; intros [|b l2]; cbn; auto. Qed.

Lemma nth_error_zipwith {A B C} (f : A -> B -> C) l1 l2 i :
  nth_error (zipwith f l1 l2) i =
  match nth_error l1 i, nth_error l2 i with Some a, Some b => Some (f a b) | _, _ => None end.
Proof.
  revert l2 i; induction l1 as [|a t IH]; intros [|b l2] [|i]; cbn; auto.
  destruct (nth_error t i); reflexivity.
Qed.

Lemma nth_error_ext {A} (l1 l2 : list A) :
  (forall i, nth_error l1 i = nth_error l2 i) -> l1 = l2.
Proof.
  revert l2; induction l1 as [|a t IH]; intros [|b l2] H; auto.
  - specialize (H 0); discriminate.
  - specialize (H 0); discriminate.
  - f_equal.
    + specialize (H 0); cbn in H; congruence.
    + apply IH. intros i. apply (H (S i)).
Qed.

Lemma omap_Ok_length {A B} (f : A -> outcome B) l r : omap f l = Ok r -> List.length r = List.length l.
Proof.
  revert r; induction l as [|a t IH]; cbn; intros r H.
  - injection H as <-; reflexivity.
  - apply bind_Ok_inv in H as (b & _ & H). apply bind_Ok_inv in H as (r' & Hr & H).
    injection H as <-. cbn. f_equal; auto.
Qed.

Lemma omap_Ok_nth {A B} (f : A -> outcome B) l r i a :
  omap f l = Ok r -> nth_error l i = Some a -> exists b, f a = Ok b /\ nth_error r i = Some b.
Proof.
  revert r i; induction l as [|x t IH]; cbn; intros r i H Hn.
  - destruct i; discriminate.
  - apply bind_Ok_inv in H as (b & Hb & H). apply bind_Ok_inv in H as (r' & Hr & H).
    injection H as <-. destruct i as [|i]; cbn in *.
    + injection Hn as ->; eauto.
    + eauto.
Qed.

Lemma omap_all_ok {A B} (f : A -> outcome B) (g : A -> B) l :
  (forall a, In a l -> f a = Ok (g a)) -> omap f l = Ok (map g l).
Proof.
  induction l as [|a t IH]; cbn; intros H; auto.
  rewrite H by auto. cbn. rewrite IH by auto. reflexivity.
Qed.

Lemma ofold_inv {A S} (f : S -> A -> outcome S) (P : S -> Prop) l s :
  P s -> (forall s a, In a l -> P s -> exists s', f s a = Ok s' /\ P s') ->
  exists s', ofold f l s = Ok s' /\ P s'.
Proof.
  revert s; induction l as [|a t IH]; intros s Hs Hf; cbn; eauto.
  destruct (Hf s a (or_introl eq_refl) Hs) as (s' & E & Hs'). rewrite E. cbn.
  apply IH; auto. intros s0 a0 Hin. apply Hf. now right.
Qed.

Lemma map_nth_seq {A} (v : list A) d : map (fun i => nth i v d) (seq 0 (List.length v)) = v.
Proof.
  induction v as [|a t IH]; cbn; auto. f_equal.
  rewrite <- seq_shift, map_map. exact IH.
Qed.

Lemma nth_map_in {A B} (f : A -> B) l i d d' :
  i < List.length l -> nth i (map f l) d = f (nth i l d').
Proof.
  revert i; induction l as [|a t IH]; intros [|i] H; cbn in *; try lia; auto. apply IH. lia.
Qed.
