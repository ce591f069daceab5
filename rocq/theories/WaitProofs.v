From Verif Require Import Base Num NumOrder ToolsModel WaitModel WaitSpec.
Local Open Scope outcome_scope.

Lemma to_int_id z : (int_min <= z <= int_max)%Z -> to_int z = z.
Proof. unfold to_int, int_min, int_max. intros H. rewrite Z.mod_small; lia. Qed.

Section P.
Context {N : Num} {ok : F -> Prop} (OL : order_laws N ok).

Lemma ok_zero : ok fzero. Proof. apply (ol_lit _ _ OL). lia. Qed.
Lemma ok_m1 : ok (fofZ (-1)). Proof. apply (ol_lit _ _ OL). lia. Qed.
Lemma m1_neg : fltb (fofZ (-1)) fzero = true.
Proof. unfold fzero. rewrite (ol_lit_lt _ _ OL); [reflexivity|lia|lia]. Qed.
Lemma zero_zero : fltb fzero fzero = false. Proof. apply (ol_irrefl _ _ OL), ok_zero. Qed.

(* a threshold is absent (negative) or strictly positive *)
Definition fpos_or_abs (x : F) : Prop := ok x /\ (fltb x fzero = true \/ fltb fzero x = true).
Definition zpos_or_abs (z : Z) : Prop := (z < 0 \/ 0 < z)%Z.
Definition wf_or (w : Wait) : Prop :=
  w_op w <> andOp /\ zpos_or_abs (w_epochs w) /\ fpos_or_abs (w_accuracy w) /\ ok (w_mae w) /\
  zpos_or_abs (w_duration w).

Lemma fpos_split x : fpos_or_abs x -> (fltb x fzero = true /\ fltb fzero x = false) \/ (fltb x fzero = false /\ fltb fzero x = true).
Proof.
  intros [Hx [H|H]]; [left|right]; split; auto; eapply lt_asym; eauto using ok_zero.
Qed.

Lemma fmax_ok a b : ok a -> ok b -> ok (fmax a b).
Proof. unfold fmax. destruct (fltb a b); auto. Qed.
Lemma fmin_ok a b : ok a -> ok b -> ok (fmin a b).
Proof. unfold fmin. destruct (fltb b a); auto. Qed.

Lemma fge_min acc a b : ok acc -> ok a -> ok b -> fgeb acc (fmin a b) = fgeb acc a || fgeb acc b.
Proof.
  intros Hc Ha Hb. unfold fgeb, fmin. rewrite !(ol_le _ _ OL) by (auto; destruct (fltb b a); auto).
  destruct (fltb b a) eqn:E.
  - destruct (fltb acc a) eqn:E1, (fltb acc b) eqn:E2; auto.
    pose proof (ol_trans _ _ OL acc b a Hc Hb Ha E2 E). congruence.
  - destruct (fltb acc a) eqn:E1, (fltb acc b) eqn:E2; auto.
    rewrite (lt_nlt_trans OL acc a b) in E2; auto.
Qed.
Lemma fge_max acc a b : ok acc -> ok a -> ok b -> fgeb acc (fmax a b) = fgeb acc a && fgeb acc b.
Proof.
  intros Hc Ha Hb. unfold fgeb, fmax. rewrite !(ol_le _ _ OL) by (auto; destruct (fltb a b); auto).
  destruct (fltb a b) eqn:E.
  - destruct (fltb acc a) eqn:E1, (fltb acc b) eqn:E2; auto.
    pose proof (ol_trans _ _ OL acc a b Hc Ha Hb E1 E). congruence.
  - destruct (fltb acc a) eqn:E1, (fltb acc b) eqn:E2; auto.
    rewrite (lt_nlt_trans OL acc b a) in E1; auto; discriminate.
Qed.
Lemma fle_max acc a b : ok acc -> ok a -> ok b -> fleb acc (fmax a b) = fleb acc a || fleb acc b.
Proof.
  intros Hc Ha Hb. unfold fmax. rewrite !(ol_le _ _ OL) by (auto; destruct (fltb a b); auto).
  destruct (fltb a b) eqn:E.
  - destruct (fltb a acc) eqn:E1, (fltb b acc) eqn:E2; auto.
    pose proof (ol_trans _ _ OL a b acc Ha Hb Hc E E2). congruence.
  - destruct (fltb a acc) eqn:E1, (fltb b acc) eqn:E2; auto.
    rewrite (nlt_lt_trans OL b a acc) in E2; auto; discriminate.
Qed.

Lemma ltb_nlt a b : ok a -> ok b -> fltb a b = true -> fltb b a = false.
Proof. apply (lt_asym OL). Qed.

(* the four tests of the else-branch of isOver *)
Definition cE (e ep : Z) : bool := (e <? ep)%Z && (0 <? ep)%Z && (0 <=? e)%Z.
Definition cA (a acc : F) : bool := fgeb acc a && fgtb acc fzero && fgeb a fzero.
Definition cM (m mae : F) : bool := fleb mae m && fgtb mae fzero && fgeb m fzero.
Definition cD (d el : Z) : bool := (d <=? to_int el)%Z && (0 <=? d)%Z.
Lemma isOver_any w el ep acc mae : w_op w <> andOp ->
  isOver w el ep acc mae = cE (w_epochs w) ep || cA (w_accuracy w) acc || cM (w_mae w) mae || cD (w_duration w) el.
Proof. unfold isOver, cE, cA, cM, cD. destruct (w_op w); congruence. Qed.

Definition orZ (a b : Z) : Z := if (0 <? a)%Z && (0 <? b)%Z then Z.min a b else Z.max a b.
Definition orA (a b : F) : F := if fgtb a fzero && fgtb b fzero then fmin a b else fmax a b.
Lemma orZ_wf a b : zpos_or_abs a -> zpos_or_abs b -> zpos_or_abs (orZ a b).
Proof. unfold zpos_or_abs, orZ. destruct (Z.ltb_spec 0 a), (Z.ltb_spec 0 b); cbn; lia. Qed.
Lemma orZ_E a b ep : zpos_or_abs a -> zpos_or_abs b -> cE (orZ a b) ep = cE a ep || cE b ep.
Proof.
  unfold zpos_or_abs, orZ, cE. intros. apply eq_true_iff_eq.
  destruct (Z.ltb_spec 0 a), (Z.ltb_spec 0 b); cbn [andb];
  rewrite ?orb_true_iff, ?andb_true_iff, ?Z.ltb_lt, ?Z.leb_le; lia.
Qed.
Lemma orZ_D a b el : zpos_or_abs a -> zpos_or_abs b -> cD (orZ a b) el = cD a el || cD b el.
Proof.
  unfold zpos_or_abs, orZ, cD. intros. apply eq_true_iff_eq.
  destruct (Z.ltb_spec 0 a), (Z.ltb_spec 0 b); cbn [andb];
  rewrite ?orb_true_iff, ?andb_true_iff, ?Z.ltb_lt, ?Z.leb_le; lia.
Qed.
Lemma orA_wf a b : fpos_or_abs a -> fpos_or_abs b -> fpos_or_abs (orA a b).
Proof.
  unfold orA, fmin, fmax. intros Ha Hb.
  destruct (fgtb a fzero && fgtb b fzero); [destruct (fltb b a)|destruct (fltb a b)]; auto.
Qed.
Lemma orA_A a b acc : fpos_or_abs a -> fpos_or_abs b -> ok acc -> cA (orA a b) acc = cA a acc || cA b acc.
Proof.
  intros Pa Pb Hc. pose proof (proj1 Pa) as Ka. pose proof (proj1 Pb) as Kb.
  apply fpos_split in Pa. apply fpos_split in Pb. unfold orA, cA, fgtb.
  assert (Hge : forall x, ok x -> fgeb x fzero = negb (fltb x fzero))
    by (intros; unfold fgeb; apply (ol_le _ _ OL); auto using ok_zero).
  destruct Pa as [[P1 P2]|[P1 P2]], Pb as [[P3 P4]|[P3 P4]]; rewrite P2, P4; cbn [andb];
    rewrite !Hge by auto using fmin_ok, fmax_ok; rewrite ?P1, ?P3.
  - unfold fmax. destruct (fltb a b); rewrite ?P1, ?P3; cbn; rewrite !andb_false_r; reflexivity.
  - unfold fmax. rewrite (ol_trans _ _ OL a fzero b) by auto using ok_zero. rewrite P3. cbn.
    now rewrite andb_false_r.
  - unfold fmax. rewrite (lt_asym OL b a) by (auto; apply (ol_trans _ _ OL b fzero a); auto using ok_zero).
    rewrite P1. cbn. rewrite andb_false_r, orb_false_r. reflexivity.
  - rewrite fge_min by auto. replace (fltb (fmin a b) fzero) with false by (unfold fmin; destruct (fltb b a); auto).
    cbn. rewrite !andb_true_r. destruct (fgeb acc a), (fgeb acc b), (fltb fzero acc); reflexivity.
Qed.
Lemma max_M a b mae : ok a -> ok b -> ok mae -> cM (fmax a b) mae = cM a mae || cM b mae.
Proof.
  intros Ha Hb Hm. unfold cM. rewrite fle_max by auto. unfold fgtb, fgeb.
  destruct (fltb fzero mae) eqn:E0; [|now rewrite !andb_false_r]. rewrite !andb_true_r.
  assert (Hz : forall x, ok x -> fleb mae x = true -> fleb fzero x = true).
  { intros x Hx. rewrite !(ol_le _ _ OL) by auto using ok_zero. intros Hl.
    destruct (fltb x fzero) eqn:E; auto.
    rewrite (ol_trans _ _ OL x fzero mae) in Hl; auto using ok_zero. }
  assert (H2 : fleb mae a || fleb mae b = true -> fleb fzero (fmax a b) = true).
  { intros H. rewrite <- fle_max in H by auto. apply Hz; auto using fmax_ok. }
  pose proof (Hz a Ha) as Za. pose proof (Hz b Hb) as Zb.
  destruct (fleb mae a), (fleb mae b); cbn in *; try rewrite Za by auto; try rewrite Zb by auto; auto.
Qed.

Lemma wait_or_over a b el ep acc mae :
  wf_or a -> wf_or b -> ok acc -> ok mae -> exists w, wait_or a b = Ok w /\
  wf_or w /\ isOver w el ep acc mae = isOver a el ep acc mae || isOver b el ep acc mae.
Proof.
  intros (Oa & Ea & Aa & Ma & Da) (Ob & Eb & Ab & Mb & Db) Hacc Hmae.
  assert (E : wait_or a b = Ok (mkWait (orZ (w_epochs a) (w_epochs b)) (orA (w_accuracy a) (w_accuracy b))
           (fmax (w_mae a) (w_mae b)) (orZ (w_duration a) (w_duration b)) orOp))
    by (unfold wait_or; destruct (w_op a); try congruence; reflexivity).
  eexists; split; [exact E|]. split.
  - split; [cbn; discriminate|]. cbn. auto using orZ_wf, orA_wf, fmax_ok.
  - rewrite !isOver_any by (auto; cbn; discriminate). cbn [w_epochs w_accuracy w_mae w_duration].
    rewrite orZ_E, orA_A, max_M, orZ_D by auto.
    destruct (cE (w_epochs a) ep), (cE (w_epochs b) ep), (cA (w_accuracy a) acc), (cA (w_accuracy b) acc),
      (cM (w_mae a) mae), (cM (w_mae b) mae), (cD (w_duration a) el), (cD (w_duration b) el); reflexivity.
Qed.

Lemma cA_absent x acc : ok x -> fltb x fzero = true -> cA x acc = false.
Proof.
  intros. unfold cA, fgeb. rewrite (ol_le _ _ OL fzero x) by auto using ok_zero. rewrite H0. cbn. apply andb_false_r.
Qed.
Lemma cM_absent x acc : ok x -> fltb x fzero = true -> cM x acc = false.
Proof.
  intros. unfold cM, fgeb. rewrite (ol_le _ _ OL fzero x) by auto using ok_zero. rewrite H0. cbn. apply andb_false_r.
Qed.
Lemma cE_absent ep : cE (-1) ep = false.
Proof. unfold cE. cbn. apply andb_false_r. Qed.
Lemma cD_absent ep : cD (-1) ep = false.
Proof. unfold cD. cbn. apply andb_false_r. Qed.
Lemma to_int_m1 : to_int (-1) = (-1)%Z. Proof. reflexivity. Qed.

Lemma literal_over c el ep acc mae :
  literal_ok ok c -> (0 <= el <= int_max)%Z ->
  isOver (literal c) el ep acc mae = met el ep acc mae c.
Proof.
  intros Hc He. rewrite isOver_any by (destruct c; discriminate).
  destruct c as [n|a|m|d]; cbn [literal lit_ep lit_acc lit_mae lit_ms w_epochs w_accuracy w_mae w_duration met literal_ok] in *;
    rewrite ?cE_absent, ?cD_absent, ?(cA_absent _ _ ok_m1 m1_neg), ?(cM_absent _ _ ok_m1 m1_neg); cbn [orb];
    rewrite ?orb_false_r.
  - rewrite to_int_id by (unfold int_min, int_max in *; lia). unfold cE. apply eq_true_iff_eq.
    rewrite !andb_true_iff, !Z.ltb_lt, Z.leb_le. lia.
  - unfold cA. destruct Hc as [Ka Hn]. unfold fgeb at 2. rewrite (ol_le _ _ OL fzero a), Hn by auto using ok_zero.
    now rewrite andb_true_r.
  - unfold cM. destruct Hc as [Ka Hn]. unfold fgeb. rewrite (ol_le _ _ OL fzero m), Hn by auto using ok_zero.
    now rewrite andb_true_r.
  - rewrite (to_int_id d) by (unfold int_min, int_max in *; lia). unfold cD.
    rewrite to_int_id by (unfold int_min, int_max in *; lia). apply eq_true_iff_eq.
    rewrite !andb_true_iff, !Z.leb_le. lia.
Qed.
Lemma literal_wf_or c : literal_ok ok c -> positive c -> wf_or (literal c).
Proof.
  unfold wf_or, zpos_or_abs, fpos_or_abs.
  destruct c as [n|a|m|d]; cbn; intros Hok Hp; repeat split; try discriminate; try lia; auto using ok_m1, m1_neg;
    try (rewrite to_int_id; unfold int_min, int_max in *; lia); try (left; apply m1_neg); try apply Hok.
Qed.

Lemma or_tree_l e el ep acc mae :
  only_or e -> Forall (fun c => literal_ok ok c /\ positive c) (leaves e) ->
  ok acc -> ok mae -> (0 <= el <= int_max)%Z ->
  exists w, eval e = Ok w /\ wf_or w /\ isOver w el ep acc mae = existsb (met el ep acc mae) (leaves e).
Proof.
  intros Ho Hl Hacc Hmae Hel. induction e as [c|l IHl r IHr|l IHl r IHr]; cbn in *; try contradiction.
  - inversion Hl as [|? ? [H1 H2] _]; subst. eexists; split; [reflexivity|]. split; [now apply literal_wf_or|].
    rewrite literal_over by auto. now rewrite orb_false_r.
  - apply Forall_app in Hl as [Hl Hr]. destruct Ho as [Ho1 Ho2].
    destruct (IHl Ho1 Hl) as (a & Ea & Wa & Oa). destruct (IHr Ho2 Hr) as (b & Eb & Wb & Ob).
    rewrite Ea, Eb. cbn. destruct (wait_or_over a b el ep acc mae Wa Wb Hacc Hmae) as (w & Ew & Ww & Hw).
    exists w. split; auto. split; auto. rewrite Hw, Oa, Ob, existsb_app. reflexivity.
Qed.

(* ---- && ---- *)
Definition dE (e ep : Z) : bool := ((e <? ep)%Z && (0 <? ep)%Z) || (e <? 0)%Z.
Definition dA (a acc : F) : bool := (fgeb acc a && fgtb acc fzero) || fltb a fzero.
Definition dM (m mae : F) : bool := (fleb mae m && fgtb mae fzero) || fltb m fzero.
Definition dD (d el : Z) : bool := (d <=? to_int el)%Z || (d <? 0)%Z.
Definition over_all (w : Wait) el ep acc mae : bool :=
  dE (w_epochs w) ep && dA (w_accuracy w) acc && dM (w_mae w) mae && dD (w_duration w) el.
Lemma isOver_all w el ep acc mae : w_op w = andOp -> isOver w el ep acc mae = over_all w el ep acc mae.
Proof. unfold isOver, over_all, dE, dA, dM, dD. intros ->. reflexivity. Qed.

Definition wf_and (w : Wait) : Prop :=
  w_op w <> orOp /\ ok (w_accuracy w) /\ ok (w_mae w).
Lemma max_dE a b ep : dE (Z.max a b) ep = dE a ep && dE b ep.
Proof.
  unfold dE. apply eq_true_iff_eq. rewrite ?andb_true_iff, ?orb_true_iff, ?andb_true_iff, ?Z.ltb_lt. lia.
Qed.
Lemma max_dD a b ep : (int_min <= ep <= int_max)%Z -> (0 <= ep)%Z -> dD (Z.max a b) ep = dD a ep && dD b ep.
Proof.
  intros H H0. unfold dD. rewrite to_int_id by auto. apply eq_true_iff_eq.
  rewrite ?andb_true_iff, ?orb_true_iff, ?Z.leb_le, ?Z.ltb_lt. lia.
Qed.
Lemma max_dA a b acc : ok a -> ok b -> ok acc -> dA (fmax a b) acc = dA a acc && dA b acc.
Proof.
  intros Ha Hb Hc. unfold dA. rewrite fge_max by auto. unfold fgtb.
  destruct (fltb a fzero) eqn:Ea, (fltb b fzero) eqn:Eb.
  - replace (fltb (fmax a b) fzero) with true by (unfold fmax; destruct (fltb a b); auto). now rewrite !orb_true_r.
  - assert (Hab : fltb a b = true) by (apply (lt_nlt_trans OL a fzero b); auto using ok_zero).
    unfold fmax. rewrite Hab, Eb, orb_true_r, !orb_false_r. cbn [andb].
    unfold fgeb. rewrite !(ol_le _ _ OL) by auto.
    destruct (fltb acc a) eqn:E1; cbn; auto.
    rewrite (ol_trans _ _ OL acc a b); auto.
  - assert (Hab : fltb b a = true) by (apply (lt_nlt_trans OL b fzero a); auto using ok_zero).
    unfold fmax. rewrite (lt_asym OL b a), Ea by auto. rewrite orb_true_r, !orb_false_r, andb_true_r.
    unfold fgeb. rewrite !(ol_le _ _ OL) by auto.
    destruct (fltb acc b) eqn:E1; cbn; rewrite ?andb_false_r, ?andb_true_r; auto.
    rewrite (ol_trans _ _ OL acc b a); auto.
  - replace (fltb (fmax a b) fzero) with false by (unfold fmax; destruct (fltb a b); auto).
    rewrite !orb_false_r. destruct (fgeb acc a), (fgeb acc b), (fltb fzero acc); reflexivity.
Qed.
Lemma dM_absent x mae : fltb x fzero = true -> dM x mae = true.
Proof. unfold dM. intros ->. apply orb_true_r. Qed.

Lemma wait_and_over a b el ep acc mae :
  wf_and a -> fltb (w_mae a) fzero = true -> wf_and b -> ok acc -> (0 <= el <= int_max)%Z -> exists w, wait_and a b = Ok w /\
  wf_and w /\ w_op w = andOp /\ over_all w el ep acc mae = over_all a el ep acc mae && over_all b el ep acc mae /\
  (fltb (w_mae b) fzero = true -> fltb (w_mae w) fzero = true).
Proof.
  intros (Oa & Aa & Ma) Na (Ob & Ab & Mb) Hacc Hel.
  assert (Hm : exists m, (if fgtb (w_mae a) fzero && (0 <? w_duration b)%Z
                then fmin (w_mae a) (w_mae b) else fmax (w_mae a) (w_mae b)) = m /\
               ok (fmin m (w_mae b)) /\ dM (fmin m (w_mae b)) mae = dM (w_mae b) mae /\
               (fltb (w_mae b) fzero = true -> fltb (fmin m (w_mae b)) fzero = true)).
  { eexists; split; [reflexivity|]. unfold fgtb. rewrite (lt_asym OL (w_mae a) fzero) by auto using ok_zero. cbn [andb].
    destruct (fltb (w_mae b) fzero) eqn:Eb.
    - assert (Hn : fltb (fmin (fmax (w_mae a) (w_mae b)) (w_mae b)) fzero = true).
      { unfold fmin, fmax; repeat match goal with |- context [if ?x then _ else _] => destruct x end; auto. }
      split; [auto using fmin_ok, fmax_ok|]. split; [|auto]. rewrite !dM_absent; auto.
    - assert (Hab : fltb (w_mae a) (w_mae b) = true) by (apply (lt_nlt_trans OL _ fzero); auto using ok_zero).
      unfold fmax. rewrite Hab. unfold fmin. rewrite (ol_irrefl _ _ OL) by auto. split; [auto|]. split; [auto|]. discriminate. }
  destruct Hm as (m & Em & Km & Dm & Nm).
  assert (E : wait_and a b = Ok (mkWait (Z.max (w_epochs a) (w_epochs b)) (fmax (w_accuracy a) (w_accuracy b))
           (fmin m (w_mae b)) (Z.max (w_duration a) (w_duration b)) andOp))
    by (unfold wait_and; rewrite Em; destruct (w_op a); try congruence; reflexivity).
  eexists; split; [exact E|]. split; [|split; [reflexivity|split]].
  - split; [cbn; discriminate|]. cbn. auto using fmax_ok.
  - unfold over_all. cbn [w_epochs w_accuracy w_mae w_duration].
    rewrite max_dE, max_dA, max_dD by (auto; unfold int_min in *; lia).
    rewrite Dm, (dM_absent (w_mae a)) by auto.
    destruct (dE (w_epochs a) ep), (dE (w_epochs b) ep), (dA (w_accuracy a) acc), (dA (w_accuracy b) acc),
      (dM (w_mae b) mae), (dD (w_duration a) el), (dD (w_duration b) el); reflexivity.
  - auto.
Qed.

Lemma literal_all c el ep acc mae :
  literal_ok ok c -> (0 <= el <= int_max)%Z ->
  wf_and (literal c) /\ over_all (literal c) el ep acc mae = met el ep acc mae c /\
  (not_mae c -> fltb (w_mae (literal c)) fzero = true).
Proof.
  intros Hc He. unfold wf_and, over_all.
  assert (HA : dA (fofZ (-1)) acc = true) by (unfold dA; rewrite m1_neg; apply orb_true_r).
  assert (HD : dD (-1) el = true) by (unfold dD; apply orb_true_r).
  assert (HE : dE (-1) ep = true) by (unfold dE; apply orb_true_r).
  destruct c as [n|a|m|d]; cbn in Hc |- *;
    (split; [repeat split; auto using ok_m1, m1_neg; try discriminate; try apply Hc|]);
    (split; [|try contradiction; auto using m1_neg]);
    rewrite ?(dM_absent _ _ m1_neg), ?HA, ?HD, ?HE; cbn [andb]; rewrite ?andb_true_r.
  - unfold dE. rewrite to_int_id by (unfold int_min, int_max in *; lia). apply eq_true_iff_eq.
    rewrite orb_true_iff, andb_true_iff, !Z.ltb_lt. lia.
  - unfold dA. destruct Hc as [_ ->]. apply orb_false_r.
  - unfold dM. destruct Hc as [_ ->]. apply orb_false_r.
  - unfold dD. rewrite !to_int_id by (unfold int_min, int_max in *; lia). apply eq_true_iff_eq.
    rewrite orb_true_iff, Z.leb_le, Z.ltb_lt. lia.
Qed.

Lemma leaves_nonempty (e : expr) : leaves e <> [].
Proof.
  induction e as [c|l IHl r IHr|l IHl r IHr]; cbn; try discriminate;
    intros H; apply app_eq_nil in H as [H _]; auto.
Qed.
Lemma and_tree_aux e el ep acc mae :
  only_and e -> Forall (literal_ok ok) (leaves e) -> Forall not_mae (removelast (leaves e)) ->
  ok acc -> (0 <= el <= int_max)%Z ->
  exists w, eval e = Ok w /\ wf_and w /\ (w_op w = andOp \/ exists c, e = Lit c) /\
     over_all w el ep acc mae = forallb (met el ep acc mae) (leaves e) /\
     (Forall not_mae (leaves e) -> fltb (w_mae w) fzero = true).
Proof.
  intros Ho Hl Hn Hacc Hel. induction e as [c|l IHl r IHr|l IHl r IHr]; cbn in Ho, Hl, Hn |- *; try contradiction.
  - inversion Hl as [|? ? H1 _]; subst. eexists; split; [reflexivity|].
    destruct (literal_all c el ep acc mae H1 Hel) as (Hw & Hv & Hneg). split; auto. split; eauto.
    split; [now rewrite Hv, andb_true_r|]. intros Hf. inversion Hf; auto.
  - rewrite removelast_app in Hn by apply leaves_nonempty. apply Forall_app in Hn as [Hnl Hnr].
    apply Forall_app in Hl as [Hl Hr]. destruct Ho as [Ho1 Ho2].
    assert (Hnl' : Forall not_mae (removelast (leaves l))).
    { rewrite (app_removelast_last (Epochs 0) (leaves_nonempty l)) in Hnl. apply Forall_app in Hnl. apply Hnl. }
    destruct (IHl Ho1 Hl Hnl') as (a & Ea & Wa & _ & Oa & Na). destruct (IHr Ho2 Hr Hnr) as (b & Eb & Wb & _ & Ob & Nb).
    rewrite Ea, Eb. cbn.
    destruct (wait_and_over a b el ep acc mae Wa (Na Hnl) Wb Hacc Hel) as (w & Ew & Ww & Wo & Hw & Hneg).
    exists w. repeat (split; auto). { rewrite Hw, Oa, Ob, forallb_app. reflexivity. }
    intros Hf. apply Forall_app in Hf as [_ Hf]. auto.
Qed.

Lemma and_tree_l e el ep acc mae :
  only_and e -> Forall (literal_ok ok) (leaves e) -> Forall not_mae (removelast (leaves e)) ->
  ok acc -> (0 <= el <= int_max)%Z ->
  exists w, eval e = Ok w /\ isOver w el ep acc mae = forallb (met el ep acc mae) (leaves e).
Proof.
  intros Ho Hl Hn Hacc Hel. destruct (and_tree_aux e el ep acc mae Ho Hl Hn Hacc Hel) as (w & Ew & _ & [Hop|[c ->]] & Hv & _).
  - exists w. split; auto. now rewrite isOver_all.
  - exists w. split; auto. cbn in *. injection Ew as <-. inversion Hl; subst.
    rewrite literal_over by auto. now rewrite andb_true_r.
Qed.
End P.

(* ---- exceptions (C12) ---- *)
Section X.
Context {N : Num}.
Lemma eval_or_op e : only_or e -> exists w, eval e = Ok w /\ w_op w <> andOp.
Proof.
  induction e as [c|l IHl r IHr|l IHl r IHr]; cbn; try contradiction.
  - intros _. eexists; split; [reflexivity|]. destruct c; discriminate.
  - intros [H1 H2]. destruct (IHl H1) as (a & -> & Ha). destruct (IHr H2) as (b & -> & Hb). cbn.
    unfold wait_or. destruct (w_op a); try congruence; eexists; split; try reflexivity; discriminate.
Qed.
Lemma eval_and_op e : only_and e -> exists w, eval e = Ok w /\ w_op w <> orOp.
Proof.
  induction e as [c|l IHl r IHr|l IHl r IHr]; cbn; try contradiction.
  - intros _. eexists; split; [reflexivity|]. destruct c; discriminate.
  - intros [H1 H2]. destruct (IHl H1) as (a & -> & Ha). destruct (IHr H2) as (b & -> & Hb). cbn.
    unfold wait_and. destruct (w_op a); try congruence; eexists; split; try reflexivity; discriminate.
Qed.

Lemma eval_op e w : eval e = Ok w ->
  w_op w = match e with Lit _ => noneOp | Or _ _ => orOp | And _ _ => andOp end.
Proof.
  destruct e as [c|l r|l r]; cbn; intros H.
  - injection H as <-. destruct c; reflexivity.
  - apply bind_Ok_inv in H as (a & _ & H). apply bind_Ok_inv in H as (b & _ & H).
    unfold wait_or in H. destruct (w_op a); try discriminate; injection H as <-; reflexivity.
  - apply bind_Ok_inv in H as (a & _ & H). apply bind_Ok_inv in H as (b & _ & H).
    unfold wait_and in H. destruct (w_op a); try discriminate; injection H as <-; reflexivity.
Qed.
Lemma eval_not_ub e : eval e <> UB.
Proof.
  induction e as [c|l IHl r IHr|l IHl r IHr]; cbn; try discriminate;
    destruct (eval l) as [a| |]; cbn; try congruence; destruct (eval r) as [b| |]; cbn; try congruence;
    [unfold wait_or|unfold wait_and]; destruct (w_op a); discriminate.
Qed.
Lemma eval_ok_iff_l e : (exists w, eval e = Ok w) <-> ~ mixes_on_the_left e.
Proof.
  induction e as [c|l IHl r IHr|l IHl r IHr]; cbn [mixes_on_the_left eval].
  - split; eauto.
  - split.
    + intros (w & H). apply bind_Ok_inv in H as (a & Ha & H). apply bind_Ok_inv in H as (b & Hb & H).
      intros [Hm|[Hm|Hm]].
      * destruct l; try contradiction. pose proof (eval_op _ _ Ha) as Ho. unfold wait_or in H. rewrite Ho in H. discriminate.
      * apply (proj1 IHl); eauto.
      * apply (proj1 IHr); eauto.
    + intros Hn. destruct (proj2 IHl) as (a & Ha); [intuition auto|]. destruct (proj2 IHr) as (b & Hb); [intuition auto|].
      rewrite Ha, Hb. cbn. pose proof (eval_op _ _ Ha) as Ho. unfold wait_or. rewrite Ho.
      destruct l; eauto. exfalso; intuition auto.
  - split.
    + intros (w & H). apply bind_Ok_inv in H as (a & Ha & H). apply bind_Ok_inv in H as (b & Hb & H).
      intros [Hm|[Hm|Hm]].
      * destruct l; try contradiction. pose proof (eval_op _ _ Ha) as Ho. unfold wait_and in H. rewrite Ho in H. discriminate.
      * apply (proj1 IHl); eauto.
      * apply (proj1 IHr); eauto.
    + intros Hn. destruct (proj2 IHl) as (a & Ha); [intuition auto|]. destruct (proj2 IHr) as (b & Hb); [intuition auto|].
      rewrite Ha, Hb. cbn. pose proof (eval_op _ _ Ha) as Ho. unfold wait_and. rewrite Ho.
      destruct l; eauto. exfalso; intuition auto.
Qed.
Lemma mixes_dec e : mixes_on_the_left e \/ ~ mixes_on_the_left e.
Proof.
  induction e as [c|l IHl r IHr|l IHl r IHr]; cbn; try intuition auto; destruct l; intuition auto.
Qed.
Lemma eval_throw_iff_l e : (exists m, eval e = Throw m) <-> mixes_on_the_left e.
Proof.
  pose proof (eval_ok_iff_l e) as H. pose proof (eval_not_ub e). destruct (mixes_dec e) as [Hm|Hm].
  - split; auto. intros _. destruct (eval e) as [w|m|] eqn:E; eauto; try congruence.
    exfalso. apply (proj1 H); eauto.
  - split; [|intuition auto]. intros (m & E). apply H in Hm as (w & Hw). congruence.
Qed.
End X.
