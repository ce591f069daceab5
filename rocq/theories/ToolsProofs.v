From Coq Require Import Lia ZifyBool DecimalString DecimalPos DecimalZ Ascii.
From Verif Require Import Base Num NumOrder ToolsModel.
Ltac Zify.zify_post_hook ::= Z.div_mod_to_equations.
Local Open Scope outcome_scope.

(* ---- index maps ---- *)
Lemma i32_ok z : (int_min <= z <= int_max)%Z -> i32 z = Ok z.
Proof. unfold i32, in_int. intros. destruct (Z.leb_spec int_min z), (Z.leb_spec z int_max); cbn; auto; lia. Qed.
Lemma i32_inv z z' : i32 z = Ok z' -> z' = z /\ (int_min <= z <= int_max)%Z.
Proof.
  unfold i32, in_int. destruct (Z.leb_spec int_min z), (Z.leb_spec z int_max); cbn; intros E; try discriminate.
  injection E as <-. lia.
Qed.
Lemma irem_ok a b : (0 < b)%Z -> (0 <= a)%Z -> irem a b = Ok (a mod b)%Z.
Proof. unfold irem. intros. destruct (Z.eqb_spec b 0); [lia|]. f_equal. apply Z.rem_mod_nonneg; lia. Qed.
Lemma iquot_ok a b : (0 < b)%Z -> (0 <= a <= int_max)%Z -> iquot a b = Ok (a / b)%Z.
Proof.
  unfold iquot. intros. destruct (Z.eqb_spec b 0); [lia|]. rewrite Z.quot_div_nonneg by lia.
  apply i32_ok. unfold int_min. split; [pose proof (Z.div_pos a b); lia|].
  pose proof (Z.div_le_upper_bound a b a). nia.
Qed.

Lemma index2_l x y maxX maxY :
  (0 <= x < maxX)%Z -> (0 <= y < maxY)%Z -> (maxX * maxY <= int_max)%Z ->
  exists i, flatten2 x y maxX = Ok i /\ (0 <= i < maxX * maxY)%Z /\ roughenX2 i maxX = Ok x /\ roughenY2 i maxX = Ok y.
Proof.
  intros Hx Hy Hm. assert (0 <= y * maxX + x < maxX * maxY)%Z by nia.
  assert (0 <= y * maxX <= int_max)%Z by nia.
  exists (y * maxX + x)%Z. unfold flatten2. rewrite i32_ok by (unfold int_min; lia). cbn.
  rewrite i32_ok by (unfold int_min; lia). split; auto. split; auto.
  unfold roughenX2, roughenY2. rewrite irem_ok, iquot_ok by lia.
  split; f_equal.
  - rewrite Z.add_comm, Z.mod_add, Z.mod_small; lia.
  - rewrite Z.add_comm, Z.div_add, Z.div_small; lia.
Qed.
Lemma index2_back_l i maxX maxY :
  (0 < maxX)%Z -> (0 <= i < maxX * maxY)%Z -> (maxX * maxY <= int_max)%Z ->
  exists x y, roughenX2 i maxX = Ok x /\ roughenY2 i maxX = Ok y /\ (0 <= x < maxX)%Z /\ (0 <= y < maxY)%Z /\
    flatten2 x y maxX = Ok i.
Proof.
  intros Hp Hi Hm. exists (i mod maxX)%Z, (i / maxX)%Z. unfold roughenX2, roughenY2.
  rewrite irem_ok, iquot_ok by lia.
  assert (Hq : (0 <= i / maxX < maxY)%Z).
  { split; [apply Z.div_pos; lia|]. apply Z.div_lt_upper_bound; lia. }
  pose proof (Z.mod_pos_bound i maxX Hp). pose proof (Z.div_mod i maxX).
  repeat (split; auto). unfold flatten2. rewrite i32_ok by (unfold int_min; nia). cbn.
  rewrite i32_ok by (unfold int_min; nia). f_equal. lia.
Qed.

Lemma index3_l x y z maxX maxY maxZ :
  (0 <= x < maxX)%Z -> (0 <= y < maxY)%Z -> (0 <= z < maxZ)%Z -> (maxX * maxY * maxZ <= int_max)%Z ->
  exists i, flatten3 x y z maxX maxY = Ok i /\ (0 <= i < maxX * maxY * maxZ)%Z /\
     roughenX3 i maxX maxY = Ok x /\ roughenY3 i maxX maxY = Ok y /\
     (forall x' y' z', (0 <= x' < maxX)%Z -> (0 <= y' < maxY)%Z -> (0 <= z' < maxZ)%Z ->
        flatten3 x' y' z' maxX maxY = Ok i -> x' = x /\ y' = y /\ z' = z).
Proof.
  intros Hx Hy Hz Hm.
  assert (Hxy : (0 < maxX * maxY)%Z) by nia.
  assert (Hp : (maxX * maxY <= int_max)%Z) by nia.
  assert (Hyx : (0 <= y * maxX + x < maxX * maxY)%Z) by nia.
  assert (Hall : forall x' y' z', (0 <= x' < maxX)%Z -> (0 <= y' < maxY)%Z -> (0 <= z' < maxZ)%Z ->
     flatten3 x' y' z' maxX maxY = Ok (z' * (maxX * maxY) + (y' * maxX + x'))%Z /\
     (0 <= z' * (maxX * maxY) + (y' * maxX + x') < maxX * maxY * maxZ)%Z).
  { intros x' y' z' Hx' Hy' Hz'. assert (Hyx' : (0 <= y' * maxX + x' < maxX * maxY)%Z) by nia.
    assert (Hi : (0 <= z' * (maxX * maxY) + (y' * maxX + x') < maxX * maxY * maxZ)%Z) by nia.
    split; auto. unfold flatten3.
    assert (0 <= z' * maxY * maxX)%Z by nia. assert (0 <= z' * maxY)%Z by nia. assert (0 <= y' * maxX)%Z by nia.
    assert (z' * maxY <= z' * maxY * maxX)%Z by nia.
    rewrite i32_ok by (unfold int_min; nia). cbn. rewrite i32_ok by (unfold int_min; nia). cbn.
    rewrite i32_ok by (unfold int_min; nia). cbn. rewrite i32_ok by (unfold int_min; nia). cbn.
    rewrite i32_ok by (unfold int_min; nia). f_equal. ring. }
  destruct (Hall x y z Hx Hy Hz) as [E Hi].
  exists (z * (maxX * maxY) + (y * maxX + x))%Z. split; auto. split; auto.
  unfold roughenX3, roughenY3. rewrite i32_ok by (unfold int_min; lia). cbn. rewrite irem_ok by lia. cbn.
  assert (Hr : ((z * (maxX * maxY) + (y * maxX + x)) mod (maxX * maxY) = y * maxX + x)%Z).
  { rewrite Z.add_comm, Z.mod_add, Z.mod_small; lia. }
  rewrite Hr. rewrite irem_ok, iquot_ok by lia.
  split; [f_equal; rewrite Z.add_comm, Z.mod_add, Z.mod_small; lia|].
  split; [f_equal; rewrite Z.add_comm, Z.div_add, Z.div_small; lia|].
  intros x' y' z' Hx' Hy' Hz' E'. destruct (Hall x' y' z' Hx' Hy' Hz') as [E2 _]. rewrite E2 in E'.
  injection E' as E'.
  assert (Hyx' : (0 <= y' * maxX + x' < maxX * maxY)%Z) by nia.
  assert (z' = z) by nia. subst z'. assert (y' = y) by nia. subst y'. split; auto. lia.
Qed.
Lemma roughenZ_l i maxX maxY : (0 < maxX)%Z -> (0 < maxY)%Z -> (maxX * maxY <= int_max)%Z -> (0 <= i)%Z ->
  roughenZ3 i maxX maxY = Ok (i mod (maxX * maxY))%Z.
Proof.
  intros. unfold roughenZ3. rewrite i32_ok by (unfold int_min; nia). cbn. apply irem_ok; nia.
Qed.

(* ---- extremum ---- *)
Section V.
Context {N : Num} {ok : F -> Prop} (OL : order_laws N ok).
Lemma fold_min_l l m : ok m -> Forall ok l ->
  let r := fold_left (fun m x => if fltb x m then x else m) l m in
  (r = m \/ In r l) /\ ok r /\ fltb m r = false /\ forall x, In x l -> fltb x r = false.
Proof.
  revert m. induction l as [|a l IH]; intros m Hm Hl; cbn.
  - repeat split; auto. apply (ol_irrefl _ _ OL); auto. contradiction.
  - inversion Hl as [|? ? Ha Hl']; subst.
    assert (Hok : ok (if fltb a m then a else m)) by (destruct (fltb a m); auto).
    destruct (IH _ Hok Hl') as (H1 & H2 & H3 & H4).
    set (r := fold_left _ l _) in *.
    assert (Hmr : fltb m r = false /\ fltb a r = false).
    { destruct (fltb a m) eqn:E.
      - split; auto. apply (nlt_trans OL r a m); auto. now apply (lt_asym OL).
      - split; auto. apply (nlt_trans OL r m a); auto. }
    destruct Hmr. repeat split; auto.
    + destruct H1 as [H1|H1]; auto. destruct (fltb a m); auto.
    + intros x [<-|Hx]; auto.
Qed.
Lemma fold_max_l l m : ok m -> Forall ok l ->
  let r := fold_left (fun m x => if fgtb x m then x else m) l m in
  (r = m \/ In r l) /\ ok r /\ fltb r m = false /\ forall x, In x l -> fltb r x = false.
Proof.
  unfold fgtb. revert m. induction l as [|a l IH]; intros m Hm Hl; cbn.
  - repeat split; auto. apply (ol_irrefl _ _ OL); auto. contradiction.
  - inversion Hl as [|? ? Ha Hl']; subst.
    assert (Hok : ok (if fltb m a then a else m)) by (destruct (fltb m a); auto).
    destruct (IH _ Hok Hl') as (H1 & H2 & H3 & H4).
    set (r := fold_left _ l _) in *.
    assert (Hmr : fltb r m = false /\ fltb r a = false).
    { destruct (fltb m a) eqn:E.
      - split; auto. apply (nlt_trans OL m a r); auto. now apply (lt_asym OL).
      - split; auto. apply (nlt_trans OL a m r); auto. }
    destruct Hmr. repeat split; auto.
    + destruct H1 as [H1|H1]; auto. destruct (fltb m a); auto.
    + intros x [<-|Hx]; auto.
Qed.
Lemma getMin_l v : 2 <= length v -> Forall ok v ->
  exists m, getMinValue v = Ok m /\ In m v /\ forall x, In x v -> fleb m x = true.
Proof.
  destruct v as [|a [|b v]]; cbn [length]; try lia. intros _ H. inversion H as [|? ? Ha Hl]; subst.
  destruct (fold_min_l _ _ Ha Hl) as (H1 & H2 & H3 & H4). cbn [getMinValue tl].
  eexists; split; [reflexivity|]. split; [destruct H1 as [->|H1]; [now left|now right]|].
  rewrite Forall_forall in H. intros x Hx. rewrite (ol_le _ _ OL) by auto.
  destruct Hx as [<-|Hx]; [now rewrite H3|now rewrite H4].
Qed.
Lemma getMax_l v : 2 <= length v -> Forall ok v ->
  exists m, getMaxValue v = Ok m /\ In m v /\ forall x, In x v -> fleb x m = true.
Proof.
  destruct v as [|a [|b v]]; cbn [length]; try lia. intros _ H. inversion H as [|? ? Ha Hl]; subst.
  destruct (fold_max_l _ _ Ha Hl) as (H1 & H2 & H3 & H4). cbn [getMaxValue tl].
  eexists; split; [reflexivity|]. split; [destruct H1 as [->|H1]; [now left|now right]|].
  rewrite Forall_forall in H. intros x Hx. rewrite (ol_le _ _ OL) by auto.
  destruct Hx as [<-|Hx]; [now rewrite H3|now rewrite H4].
Qed.
End V.

(* ---- random ---- *)
Lemma random_l min max num den :
  (min < max)%Z -> (min * Zpos den <= num < max * Zpos den)%Z ->
  (min <= randomBetweenInt num den <= max)%Z /\ ((0 < max)%Z -> (randomBetweenInt num den < max)%Z).
Proof.
  intros Hm Hn. unfold randomBetweenInt.
  destruct (Z.le_gt_cases 0 num) as [H|H].
  - rewrite Z.quot_div_nonneg by lia. assert (0 < max)%Z by nia.
    assert (min <= num / Z.pos den < max)%Z; [|lia].
    split; [apply Z.div_le_lower_bound; lia|apply Z.div_lt_upper_bound; lia].
  - rewrite <- (Z.opp_involutive num), Z.quot_opp_l by lia.
    rewrite Z.quot_div_nonneg by lia.
    assert (0 <= (- num) / Z.pos den)%Z by (apply Z.div_pos; lia).
    assert ((- num) / Z.pos den <= - min)%Z.
    { apply Z.div_le_upper_bound; lia. }
    assert (- max <= (- num) / Z.pos den)%Z.
    { apply Z.div_le_lower_bound; lia. }
    lia.
Qed.

(* ---- flatten ---- *)
Lemma flattenV_l {A} (v : list (list A)) : flattenV v = concat v.
Proof.
  unfold flattenV. assert (H : forall acc, fold_left (fun acc x => acc ++ x) v acc = acc ++ concat v).
  { induction v as [|x v IH]; intros acc; cbn; [now rewrite app_nil_r|]. now rewrite IH, app_assoc. }
  apply H.
Qed.

(* ---- padding ---- *)
Fixpoint spaces (k : nat) : string := match k with O => EmptyString | S k' => String " "%char (spaces k') end.
Lemma pad_spaces k s : pad k s = (spaces k ++ s)%string.
Proof.
  revert s; induction k as [|k IH]; intros s; cbn; auto. rewrite IH.
  clear IH. induction k as [|k IH]; cbn; auto. now f_equal.
Qed.
Lemma sapp_length a b : String.length (a ++ b)%string = String.length a + String.length b.
Proof. induction a as [|c a IH]; cbn; auto. Qed.
Lemma spaces_length k : String.length (spaces k) = k.
Proof. induction k; cbn; auto. Qed.
Lemma padding_l v len :
  exists k, toConstSizeString v len = (spaces k ++ to_string v)%string /\
    String.length (toConstSizeString v len) = Nat.max len (String.length (to_string v)).
Proof.
  unfold toConstSizeString. set (s := to_string v). exists (len - String.length s).
  rewrite pad_spaces. split; auto. rewrite sapp_length, spaces_length. lia.
Qed.
(* the decimal printer is faithful *)
Lemma to_string_inj a b : to_string a = to_string b -> a = b.
Proof.
  unfold to_string. intros H.
  assert (Hi : Z.to_int a = Z.to_int b).
  { assert (E : forall z, NilZero.int_of_string (NilZero.string_of_int (Z.to_int z)) = Some (Z.to_int z)).
    { intros z. apply NilZero.isi; unfold Z.to_int; destruct z; cbn; try discriminate;
      destruct (Pos.to_uint p) eqn:Ep; try discriminate; exfalso.
      all: pose proof (DecimalPos.Unsigned.of_to p) as Hp; rewrite Ep in Hp; discriminate. }
    pose proof (E a). pose proof (E b). rewrite H in H0. congruence. }
  rewrite <- (DecimalZ.of_to a), <- (DecimalZ.of_to b). now rewrite Hi.
Qed.

(* ---- durations ---- *)
Lemma toString_small_l d : (0 < d <= 60000)%Z ->
  (d <= 1000 -> toString d = to_string d ++ "ms")%string%Z /\
  ((1000 < d)%Z -> toString d = (to_string (d / 1000) ++ "s")%string /\ (1 <= d / 1000 <= 60)%Z).
Proof.
  intros H. unfold toString.
  destruct (Z.ltb_spec 3600000 d); [lia|]. destruct (Z.ltb_spec 60000 d); [lia|].
  split; intros H'.
  - destruct (Z.ltb_spec 1000 d); [lia|]. destruct (Z.ltb_spec 0 d); [reflexivity|lia].
  - destruct (Z.ltb_spec 1000 d); [|lia]. split; [reflexivity|]. lia.
Qed.
