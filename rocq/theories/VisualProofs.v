(* Lemmas about drawing. *)
From Verif Require Import Base Num VisualModel VisualSpec.
Local Open Scope nat_scope.

Lemma ofold_app {A S} (f : S -> A -> outcome S) a b s : ofold f (a ++ b) s = bind (ofold f a s) (fun s => ofold f b s).
Proof. revert s. induction a as [|x a IH]; intros s; [reflexivity|]. cbn. destruct (f s x); cbn; auto. Qed.
Lemma ofold_ext_in {A S} (f g : S -> A -> outcome S) l s : (forall s a, In a l -> f s a = g s a) -> ofold f l s = ofold g l s.
Proof. revert s. induction l as [|x l IH]; intros s H; [reflexivity|]. cbn. rewrite (H s x) by now left. destruct (g s x); cbn; auto. apply IH. intros. apply H. now right. Qed.
Lemma ofold_seq_shift {S} (f : S -> nat -> outcome S) n k s : ofold f (seq k n) s = ofold (fun s i => f s (k + i)) (seq 0 n) s.
Proof.
  revert k f s. induction n as [|n IH]; intros k f s; [reflexivity|]. cbn [seq ofold]. rewrite Nat.add_0_r. destruct (f s k); cbn [bind]; auto.
  rewrite (IH (Datatypes.S k)), (IH 1). apply ofold_ext_in. intros. f_equal. lia.
Qed.
(* two nested loops are one loop *)
Lemma grid_fold {S} (f : S -> nat -> nat -> outcome S) a b s :
  ofold (fun s y => ofold (fun s x => f s y x) (seq 0 a) s) (seq 0 b) s = ofold (fun s n => f s (n / a) (n mod a)) (seq 0 (b * a)) s.
Proof.
  destruct (Nat.eq_dec a 0) as [->|Ha]. { rewrite Nat.mul_0_r. cbn [seq ofold]. clear. generalize 0 as k. revert s. induction b as [|b IH]; intros s k; [reflexivity|]. cbn. apply IH. }
  revert s. induction b as [|b IH]; intros s; [reflexivity|]. rewrite seq_S, ofold_app, IH. cbn [Nat.add].
  replace (Datatypes.S b * a) with (b * a + a) by lia. rewrite seq_app, ofold_app. cbn [Nat.add]. destruct (ofold _ (seq 0 (b * a)) s) as [a0| |]; cbn [bind]; auto.
  cbn [ofold]. rewrite (ofold_seq_shift (fun s1 n => f s1 (n / a) (n mod a)) a (b * a) a0).
  transitivity (ofold (fun s1 x => f s1 b x) (seq 0 a) a0); [destruct (ofold _ (seq 0 a) a0); reflexivity|].
  apply ofold_ext_in. intros s1 i Hi. apply in_seq in Hi. rewrite Nat.div_add_l by lia. rewrite Nat.div_small by lia. rewrite (Nat.add_comm (b * a) i), Nat.mod_add by lia. rewrite Nat.mod_small by lia. f_equal. lia.
Qed.
Lemma cut_fold {S} (g : S -> nat -> outcome S) C m s : C <= m -> ofold (fun s n => if n <? C then g s n else Ok s) (seq 0 m) s = ofold g (seq 0 C) s.
Proof.
  intros H. replace m with (C + (m - C)) by lia. rewrite seq_app, ofold_app. rewrite (ofold_ext_in _ g (seq 0 C)).
  - destruct (ofold g (seq 0 C) s); cbn [bind]; auto. cbn [Nat.add]. rewrite (ofold_ext_in _ (fun s _ => Ok s)).
    + generalize (seq C (m - C)). intros l. induction l; cbn; auto.
    + intros s1 n Hn. apply in_seq in Hn. destruct (Nat.ltb_spec n C); [lia|reflexivity].
  - intros s1 n Hn. apply in_seq in Hn. destruct (Nat.ltb_spec n C); [reflexivity|lia].
Qed.

(* m pixels drawn one after the other at the positions [at_ n] of the data *)
Lemma draw_fold (w h m : nat) (col : nat -> outcome pixel) (px py : nat -> nat) (p : nat -> pixel) im0 :
  List.length (bm_data im0) = w * h -> bm_width im0 = w -> bm_height im0 = h ->
  (forall n, n < m -> col n = Ok (p n)) -> (forall n, n < m -> px n < w /\ py n < h) ->
  (forall n n', n < m -> n' < m -> px n = px n' -> py n = py n' -> n = n') ->
  exists im, ofold (fun s n => bind (col n) (fun c => bind (set_pixel (snd s) (px n) (py n) c) (fun im => Ok (S (fst s), im)))) (seq 0 m) (0, im0) = Ok (m, im) /\
    bm_width im = w /\ bm_height im = h /\ List.length (bm_data im) = w * h /\
    (forall n, n < m -> pixel_at im (px n) (py n) = Some (p n)) /\
    (forall x y, x < w -> y < h -> (forall n, n < m -> ~ (x = px n /\ y = py n)) -> pixel_at im x y = pixel_at im0 x y).
Proof.
  intros L W H. revert L W H. induction m as [|m IH]; intros L W H Hc Hin Hinj.
  - exists im0. cbn. repeat (split; [auto; fail|]). split; [intros; lia|auto].
  - destruct IH as (im & E & Ww & Hh & Ld & Hp & Ho); auto.
    rewrite seq_S, ofold_app, E. cbn [bind ofold Nat.add fst snd]. rewrite (Hc m) by lia. cbn [bind].
    destruct (Hin m ltac:(lia)) as [Hx Hy]. assert (Hb : py m * w + px m < w * h) by nia.
    unfold set_pixel, lset. rewrite Ww, Ld. destruct (Nat.ltb_spec (py m * w + px m) (w * h)); [|lia]. cbn [bind].
    eexists. split; [reflexivity|]. cbn [bm_width bm_height bm_data]. split; [auto|]. split; [auto|]. split; [now rewrite replace_length|].
    assert (K : forall x y, x < w -> y < h -> ~ (x = px m /\ y = py m) -> nth_error (replace (bm_data im) (py m * w + px m) (p m)) (y * w + x) = nth_error (bm_data im) (y * w + x)).
    { intros x y Hx' Hy' Hne. rewrite nth_error_replace. destruct (Nat.eqb_spec (y * w + x) (py m * w + px m)) as [Heq|]; [|reflexivity].
      exfalso. apply Hne. assert (y = py m) by (apply (f_equal (fun z => z / w)) in Heq; rewrite !Nat.div_add_l, !Nat.div_small in Heq by lia; lia). subst y. lia. }
    split.
    + intros n Hn. unfold pixel_at. cbn [bm_width bm_height bm_data]. destruct (Hin n Hn) as [Hxn Hyn].
      destruct (Nat.ltb_spec (px n) w); [|lia]. rewrite Hh. destruct (Nat.ltb_spec (py n) h); [|lia]. cbn [andb].
      destruct (Nat.eq_dec n m) as [->|Hnm].
      * rewrite nth_error_replace, Nat.eqb_refl, Ld. destruct (Nat.ltb_spec (py m * w + px m) (w * h)); [reflexivity|lia].
      * rewrite K; auto.
        { specialize (Hp n ltac:(lia)). unfold pixel_at in Hp. rewrite Ww, Hh in Hp. destruct (Nat.ltb_spec (px n) w); [|lia]. destruct (Nat.ltb_spec (py n) h); [|lia]. exact Hp. }
        intros [E1 E2]. apply Hnm. apply Hinj; auto; lia.
    + intros x y Hx' Hy' Hno. rewrite <- Ho; auto. unfold pixel_at. cbn [bm_width bm_height bm_data]. rewrite Ww, Hh.
      destruct (Nat.ltb_spec x w); [|lia]. destruct (Nat.ltb_spec y h); [|lia]. cbn [andb]. apply K; auto.
Qed.

(* numbering of a C * X * Y block *)
Lemma block_unique C X n : 0 < C -> 0 < X -> n = (n / C / X * X + (n / C) mod X) * C + n mod C.
Proof. intros HC HX. pose proof (Nat.div_mod n C ltac:(lia)). pose proof (Nat.div_mod (n / C) X ltac:(lia)). nia. Qed.
Lemma block_parts C X c i j : c < C -> i < X -> let n := (j * X + i) * C + c in n mod C = c /\ (n / C) mod X = i /\ n / C / X = j.
Proof.
  intros Hc Hi n. unfold n. rewrite Nat.div_add_l by lia. rewrite (Nat.div_small c C) by lia. rewrite Nat.add_0_r.
  rewrite (Nat.add_comm _ c), Nat.mod_add, Nat.mod_small by lia. rewrite Nat.div_add_l by lia. rewrite (Nat.div_small i X) by lia.
  rewrite (Nat.add_comm _ i), Nat.mod_add, Nat.mod_small by lia. repeat split; lia.
Qed.
Lemma place_inj (s : nat) X a b i i' : 0 < X -> i < X -> i' < X -> a * (X + 1) + i = b * (X + 1) + i' -> a = b /\ i = i'.
Proof. intros. assert (a = b) by (apply (f_equal (fun z => z / (X + 1))) in H2; rewrite !Nat.div_add_l, !Nat.div_small in H2 by lia; lia). subst. lia. Qed.

Section P.
Context {N : Num} (cv : Conv).
Lemma uchar_showable v l : showable cv v l -> uchar cv (fmul v (fofZ 255)) = Ok l.
Proof. intros [E B]. unfold uchar. rewrite E. destruct (Z.leb_spec 0 l); [|lia]. destruct (Z.leb_spec l 255); [|lia]. reflexivity. Qed.
Lemma grid_room C : 0 < C -> square_side C (ceilSqrt cv C) -> 0 < gridX cv C /\ C <= gridY cv C * gridX cv C /\ 0 < gridY cv C.
Proof.
  unfold square_side, gridY, gridX. intros HC [A B]. set (g := ceilSqrt cv C) in *. assert (0 < g) by nia. destruct (Nat.leb_spec C (g * g - g)).
  - assert (1 < g) by (destruct (Nat.eq_dec g 1) as [E|]; [rewrite E in *; cbn in *; lia|lia]). split; [lia|]. split; [rewrite Nat.mul_sub_distr_r; lia|lia].
  - split; [lia|]. split; lia.
Qed.
Lemma drawOutputs_shows C X Y outputs (level : nat -> Z) :
  0 < C -> 0 < X -> 0 < Y -> square_side C (ceilSqrt cv C) -> List.length outputs = C * X * Y ->
  (forall n v, nth_error outputs n = Some v -> showable cv v (level n)) ->
  exists im, drawOutputs cv C X Y outputs = Ok im /\ shows (ceilSqrt cv C) C X Y (fun c i j => grey (level ((j * X + i) * C + c))) im.
Proof.
  intros HC HX HY HS L HL. destruct (grid_room C HC HS) as (Hg & Hroom & Hgy). unfold drawOutputs.
  set (gx := gridX cv C) in *. set (gy := gridY cv C) in *.
  (* the four loops as one *)
  pose (one := fun (s : nat * bitmap) c i j => bind (lget outputs (fst s)) (fun v => bind (uchar cv (fmul v (fofZ 255))) (fun l =>
     bind (set_pixel (snd s) (c mod gx * (X + 1) + i) (c / gx * (Y + 1) + j) (grey l)) (fun im => Ok (S (fst s), im))))).
  assert (E : forall s0, ofold (fun s j => ofold (fun s i => ofold (fun s y => ofold (fun s x =>
      if y * gx + x <? C then bind (lget outputs (fst s)) (fun v => bind (uchar cv (fmul v (fofZ 255))) (fun c =>
        bind (set_pixel (snd s) (x * (X + 1) + i) (y * (Y + 1) + j) (grey c)) (fun im => Ok (S (fst s), im))))
      else Ok s) (seq 0 gx) s) (seq 0 gy) s) (seq 0 X) s) (seq 0 Y) s0
    = ofold (fun s n => one s (n mod C) ((n / C) mod X) (n / C / X)) (seq 0 (Y * X * C)) s0).
  { intros s0. rewrite <- (grid_fold (fun s a c => one s c (a mod X) (a / X)) C (Y * X) s0).
    rewrite <- (grid_fold (fun s j i => ofold (fun s c => one s c i j) (seq 0 C) s) X Y s0).
    apply ofold_ext_in. intros s j _. apply ofold_ext_in. intros s1 i _.
    rewrite (grid_fold (fun s y x => if y * gx + x <? C then bind (lget outputs (fst s)) (fun v => bind (uchar cv (fmul v (fofZ 255))) (fun c =>
        bind (set_pixel (snd s) (x * (X + 1) + i) (y * (Y + 1) + j) (grey c)) (fun im => Ok (S (fst s), im)))) else Ok s) gx gy s1).
    rewrite <- (cut_fold (fun s c => one s c i j) C (gy * gx)) by exact Hroom. apply ofold_ext_in. intros s2 n _.
    replace (n / gx * gx + n mod gx) with n by (pose proof (Nat.div_mod n gx ltac:(lia)); lia). reflexivity. }
  rewrite E. clear E.
  (* the counter is the number of turns *)
  set (p := fun n => grey (level n)).
  set (px := fun n => (n mod C) mod gx * (X + 1) + (n / C) mod X). set (py := fun n => (n mod C) / gx * (Y + 1) + n / C / X).
  set (w := (X + 1) * gx - 1). set (h := (Y + 1) * gy - 1).
  assert (Hcol : forall n, n < Y * X * C -> bind (lget outputs n) (fun v => uchar cv (fmul v (fofZ 255))) = Ok (level n)).
  { intros n Hn. destruct (nth_error outputs n) as [v|] eqn:Ev; [|apply nth_error_None in Ev; lia]. unfold lget. rewrite Ev. cbn [bind]. now apply uchar_showable, HL. }
  assert (Hin : forall n, n < Y * X * C -> px n < w /\ py n < h).
  { intros n Hn. unfold px, py, w, h. assert ((n / C) mod X < X) by (apply Nat.mod_upper_bound; lia). assert ((n mod C) mod gx < gx) by (apply Nat.mod_upper_bound; lia).
    assert (n mod C < C) by (apply Nat.mod_upper_bound; lia). assert ((n mod C) / gx < gy) by (apply Nat.div_lt_upper_bound; lia).
    assert (n / C / X < Y) by (apply Nat.div_lt_upper_bound; [lia|]; apply Nat.div_lt_upper_bound; lia). split; nia. }
  assert (Hinj : forall n n', n < Y * X * C -> n' < Y * X * C -> px n = px n' -> py n = py n' -> n = n').
  { intros n n' Hn Hn' Ex Ey. unfold px in Ex. unfold py in Ey.
    apply (place_inj gx) in Ex as [A1 A2]; try (apply Nat.mod_upper_bound; lia); [|lia].
    apply (place_inj gx) in Ey as [B1 B2]; [|lia| |]; try (apply Nat.div_lt_upper_bound; [lia|]; apply Nat.div_lt_upper_bound; lia).
    rewrite (block_unique C X n), (block_unique C X n') by lia. rewrite A2, B2. f_equal.
    rewrite (Nat.div_mod (n mod C) gx), (Nat.div_mod (n' mod C) gx) by lia. congruence. }
  destruct (draw_fold w h (Y * X * C) (fun n => bind (bind (lget outputs n) (fun v => uchar cv (fmul v (fofZ 255)))) (fun l => Ok (grey l))) px py p (newBitmap w h)) as (im & E & Ew & Eh & Ld & Hp & Ho).
  { unfold newBitmap. cbn [bm_data]. now rewrite repeat_length. } { reflexivity. } { reflexivity. }
  { intros n Hn. rewrite Hcol by auto. reflexivity. } { exact Hin. } { exact Hinj. }
  assert (E2 : ofold (fun s n => one s (n mod C) ((n / C) mod X) (n / C / X)) (seq 0 (Y * X * C)) (0, canvas cv C X Y) = Ok (Y * X * C, im)).
  { rewrite <- E. change (canvas cv C X Y) with (newBitmap w h). clear -Hcol. generalize (newBitmap w h) as im0. intros im0.
    enough (G : forall m k s, k + m <= Y * X * C -> fst s = k -> ofold (fun s n => one s (n mod C) ((n / C) mod X) (n / C / X)) (seq k m) s =
      ofold (fun s n => bind (bind (bind (lget outputs n) (fun v => uchar cv (fmul v (fofZ 255)))) (fun l => Ok (grey l))) (fun c => bind (set_pixel (snd s) (px n) (py n) c) (fun im => Ok (S (fst s), im)))) (seq k m) s) by (apply G; auto).
    induction m as [|m IH]; intros k s Hk Hs; [reflexivity|]. cbn [seq ofold].
    assert (Es : one s (k mod C) ((k / C) mod X) (k / C / X) = bind (bind (bind (lget outputs k) (fun v => uchar cv (fmul v (fofZ 255)))) (fun l => Ok (grey l))) (fun c => bind (set_pixel (snd s) (px k) (py k) c) (fun im => Ok (S (fst s), im)))).
    { unfold one. rewrite Hs. destruct (lget outputs k) as [v| |]; cbn [bind]; auto. destruct (uchar cv (fmul v (fofZ 255))); reflexivity. }
    rewrite Es. clear Es. rewrite Hcol by lia. cbn [bind]. destruct (set_pixel (snd s) (px k) (py k) (grey (level k))) as [im1| |]; cbn [bind]; auto. apply IH; [lia|]. cbn. lia. }
  rewrite E2. cbn [bind]. exists im. split; [reflexivity|]. change (ceilSqrt cv C) with gx. split; [|split].
  - intros c i j Hc Hi Hj. destruct (block_parts C X c i j Hc Hi) as (P1 & P2 & P3). set (n := (j * X + i) * C + c) in *.
    assert (Hn : n < Y * X * C) by (unfold n; clear -Hc Hi Hj; assert (j * X + i + 1 <= Y * X) by nia; nia). specialize (Hp n Hn). unfold px, py in Hp. rewrite P1, P2, P3 in Hp. exact Hp.
  - intros c i j c' i' j' Hc Hi Hj Hc' Hi' Hj' Ex Ey. unfold column, row in *.
    apply (place_inj gx) in Ex as [A1 A2]; auto. apply (place_inj gx) in Ey as [B1 B2]; auto. split; [|auto].
    rewrite (Nat.div_mod c gx), (Nat.div_mod c' gx) by lia. congruence.
  - intros x y q Hq Hno. unfold pixel_at in Hq. rewrite Ew, Eh in Hq. destruct (Nat.ltb_spec x w) as [Hxw|]; [|discriminate]. destruct (Nat.ltb_spec y h) as [Hyh|]; [|discriminate]. cbn [andb] in Hq.
    assert (K : pixel_at im x y = pixel_at (newBitmap w h) x y).
    { apply Ho; auto. intros n Hn [Ex Ey]. apply (Hno (n mod C) ((n / C) mod X) (n / C / X)).
      - apply Nat.mod_upper_bound; lia.
      - apply Nat.mod_upper_bound; lia.
      - apply Nat.div_lt_upper_bound; [lia|]; apply Nat.div_lt_upper_bound; lia.
      - split; [exact Ex|exact Ey]. }
    unfold pixel_at in K. rewrite Ew, Eh in K. cbn [newBitmap bm_width bm_height bm_data] in K. destruct (Nat.ltb_spec x w); [|lia]. destruct (Nat.ltb_spec y h); [|lia]. cbn [andb] in K.
    rewrite Hq in K. symmetry in K. apply nth_error_In, repeat_spec in K. exact K.
Qed.
End P.
