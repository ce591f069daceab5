(* Order facts about the two arithmetic instances: among the values that are numbers (everything for the
   reals, everything but NaN for binary32, infinities included) `<` is a strict weak order and
   `<=`, `==` are defined from it. *)
From Coq Require Import Reals Lra SpecFloat ZArith.
From Verif Require Import Base Num.

Record order_laws (N : Num) (ok : @F N -> Prop) : Prop := {
  ol_irrefl : forall a, ok a -> fltb a a = false;
  ol_trans : forall a b c, ok a -> ok b -> ok c -> fltb a b = true -> fltb b c = true -> fltb a c = true;
  ol_cotrans : forall a b c, ok a -> ok b -> ok c -> fltb a b = true -> fltb a c = true \/ fltb c b = true;
  ol_le : forall a b, ok a -> ok b -> fleb a b = negb (fltb b a);
  ol_eq : forall a b, ok a -> ok b -> feqb a b = negb (fltb a b) && negb (fltb b a);
  ol_lit : forall z, (-2 <= z <= 2)%Z -> ok (fofZ z);
  ol_lit_lt : forall y z, (-2 <= y <= 2)%Z -> (-2 <= z <= 2)%Z -> fltb (fofZ y) (fofZ z) = Z.ltb y z
}.

(* ---- reals ---- *)
Lemma RNum_ltb (a b : @F RNum) : @fltb RNum a b = true <-> (a < b)%R.
Proof. cbn. unfold Rltb. destruct (Rlt_dec a b); split; intros; auto; try discriminate; contradiction. Qed.
Lemma RNum_ltb_false (a b : @F RNum) : @fltb RNum a b = false <-> (b <= a)%R.
Proof. cbn. unfold Rltb. destruct (Rlt_dec a b); split; intros; auto; try discriminate; lra. Qed.

Lemma RNum_lit z : @fofZ RNum z = IZR z.
Proof. unfold fofZ. cbn. unfold Rdiv. rewrite Rinv_1. apply Rmult_1_r. Qed.

Lemma order_laws_R : order_laws RNum (fun _ => True).
Proof.
  constructor; intros.
  - apply RNum_ltb_false. lra.
  - rewrite RNum_ltb in *. lra.
  - rewrite !RNum_ltb in *. lra.
  - destruct (fltb b a) eqn:E; cbn; unfold Rleb; destruct (Rle_dec a b); auto;
      [apply RNum_ltb in E | apply RNum_ltb_false in E]; lra.
  - destruct (fltb a b) eqn:E, (fltb b a) eqn:E'; cbn; unfold Reqb; destruct (Req_EM_T a b); auto;
      try (apply RNum_ltb in E); try (apply RNum_ltb_false in E);
      try (apply RNum_ltb in E'); try (apply RNum_ltb_false in E'); lra.
  - exact I.
  - rewrite !RNum_lit. destruct (Z.ltb_spec y z) as [Hl|Hl].
    + apply RNum_ltb. now apply IZR_lt.
    + apply RNum_ltb_false. now apply IZR_le.
Qed.

(* ---- binary32 ---- *)
Definition not_nan (x : f32) : Prop := x <> S754_nan.

(* rank of a float: sign/class, exponent, mantissa *)
Definition fkey (x : f32) : Z * Z * Z :=
  match x with
  | S754_zero _ => (0, 0, 0)
  | S754_infinity s => (if s then -2 else 2, 0, 0)
  | S754_nan => (0, 0, 0)
  | S754_finite s m e => if s then (-1, - e, - Zpos m) else (1, e, Zpos m)
  end%Z.
Definition key_lt (a b : Z * Z * Z) : Prop :=
  let '(a1, a2, a3) := a in let '(b1, b2, b3) := b in
  (a1 < b1 \/ a1 = b1 /\ (a2 < b2 \/ a2 = b2 /\ a3 < b3))%Z.

Lemma SFcompare_key a b : not_nan a -> not_nan b ->
  exists c, SFcompare a b = Some c /\
    match c with Lt => key_lt (fkey a) (fkey b) | Gt => key_lt (fkey b) (fkey a) | Eq => fkey a = fkey b end.
Proof.
  unfold not_nan. intros Ha Hb.
  destruct a as [s|s| |s m e], b as [s'|s'| |s' m' e']; try congruence; cbn [SFcompare fkey];
    eexists; (split; [reflexivity|]);
    try (destruct s; try destruct s'; cbn; intuition lia);
    try (destruct s'; cbn; intuition lia).
  change (Pos.compare_cont Eq m m') with (Pos.compare m m').
  destruct s, s'; cbn [key_lt]; try (left; lia).
  - destruct (Z.compare_spec e e') as [->|H|H]; [|cbn; lia|cbn; lia].
    destruct (Pos.compare_spec m m') as [->|H|H]; cbn; try reflexivity; lia.
  - destruct (Z.compare_spec e e') as [->|H|H]; [|cbn; lia|cbn; lia].
    destruct (Pos.compare_spec m m') as [->|H|H]; cbn; try reflexivity; lia.
Qed.

Lemma SFltb_key a b : not_nan a -> not_nan b -> (SFltb a b = true <-> key_lt (fkey a) (fkey b)).
Proof.
  intros Ha Hb. destruct (SFcompare_key a b Ha Hb) as (c & Hc & Hk). unfold SFltb. rewrite Hc.
  destruct (fkey a) as [[a1 a2] a3], (fkey b) as [[b1 b2] b3].
  destruct c; split; intros H; auto; try discriminate; exfalso.
  - injection Hk as -> -> ->. cbn in H. lia.
  - cbn in *. lia.
Qed.

Lemma order_laws_32 expf tanhf : order_laws (Num32 expf tanhf) not_nan.
Proof.
  constructor.
  - intros a Ha. change (SFltb a a = false). destruct (SFltb a a) eqn:E; auto.
    apply SFltb_key in E; auto. destruct (fkey a) as [[? ?] ?]. cbn in E. lia.
  - intros a b c Ha Hb Hc H1 H2. change (SFltb a c = true).
    apply SFltb_key in H1; auto. apply SFltb_key in H2; auto. apply SFltb_key; auto.
    destruct (fkey a) as [[? ?] ?], (fkey b) as [[? ?] ?], (fkey c) as [[? ?] ?]. cbn in *. lia.
  - intros a b c Ha Hb Hc H1. change (SFltb a c = true \/ SFltb c b = true).
    apply SFltb_key in H1; auto. rewrite !SFltb_key; auto.
    destruct (fkey a) as [[? ?] ?], (fkey b) as [[? ?] ?], (fkey c) as [[? ?] ?]. cbn in *. lia.
  - intros a b Ha Hb. change (SFleb a b = negb (SFltb b a)).
    destruct (SFcompare_key a b Ha Hb) as (c & Hc & Hk). unfold SFleb at 1. rewrite Hc.
    pose proof (SFltb_key b a Hb Ha) as Hl. destruct (SFltb b a) eqn:E.
    + apply proj1 in Hl. specialize (Hl eq_refl).
      destruct (fkey a) as [[? ?] ?], (fkey b) as [[? ?] ?], c; cbn in *; auto; exfalso; try (injection Hk as -> -> ->); lia.
    + destruct c; auto. exfalso. apply Hl in Hk. discriminate.
  - intros a b Ha Hb. change (SFeqb a b = negb (SFltb a b) && negb (SFltb b a)).
    pose proof (SFltb_key b a Hb Ha) as Hl.
    destruct (SFcompare_key a b Ha Hb) as (c & Hc & Hk). unfold SFeqb, SFltb at 1. rewrite Hc.
    destruct (SFltb b a) eqn:E, c; auto.
    + apply proj1 in Hl. specialize (Hl eq_refl). rewrite Hk in Hl. destruct (fkey b) as [[? ?] ?]. cbn in Hl. lia.
    + apply Hl in Hk. discriminate.
  - intros z Hz. assert (z = -2 \/ z = -1 \/ z = 0 \/ z = 1 \/ z = 2)%Z as H by lia.
    unfold not_nan, fofZ. destruct H as [->|[->|[->|[->| ->]]]]; vm_compute; discriminate.
  - intros y z Hy Hz.
    assert (y = -2 \/ y = -1 \/ y = 0 \/ y = 1 \/ y = 2)%Z as H by lia.
    assert (z = -2 \/ z = -1 \/ z = 0 \/ z = 1 \/ z = 2)%Z as H' by lia.
    unfold fofZ.
    destruct H as [->|[->|[->|[->| ->]]]]; destruct H' as [->|[->|[->|[->| ->]]]]; vm_compute; reflexivity.
Qed.

(* consequences used everywhere *)
Section L.
Context {N : Num} {ok : F -> Prop} (OL : order_laws N ok).
Lemma lt_asym a b : ok a -> ok b -> fltb a b = true -> fltb b a = false.
Proof.
  intros Ha Hb H. destruct (fltb b a) eqn:E; auto.
  pose proof (ol_trans _ _ OL a b a Ha Hb Ha H E) as H'. rewrite (ol_irrefl _ _ OL a Ha) in H'. discriminate.
Qed.
(* not-less is transitive *)
Lemma nlt_trans a b c : ok a -> ok b -> ok c -> fltb b a = false -> fltb c b = false -> fltb c a = false.
Proof.
  intros Ha Hb Hc H1 H2. destruct (fltb c a) eqn:E; auto.
  destruct (ol_cotrans _ _ OL c a b Hc Ha Hb E) as [H|H]; congruence.
Qed.
Lemma lt_nlt_trans a b c : ok a -> ok b -> ok c -> fltb a b = true -> fltb c b = false -> fltb a c = true.
Proof. intros Ha Hb Hc H1 H2. destruct (ol_cotrans _ _ OL a b c Ha Hb Hc H1); congruence. Qed.
Lemma nlt_lt_trans a b c : ok a -> ok b -> ok c -> fltb b a = false -> fltb b c = true -> fltb a c = true.
Proof. intros Ha Hb Hc H1 H2. destruct (ol_cotrans _ _ OL b c a Hb Hc Ha H2); congruence. Qed.
End L.
