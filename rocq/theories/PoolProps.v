(* C30: max pooling. *)
From Coq Require Import SpecFloat.
From Verif Require Import Base Num NumOrder Witness ActModel NeuronModel LayerModel NetModel NeuronProofs LayerProofs SafeProofs SafeLayers
  FactoryModel FactorySpec FactoryProofs FilterSpec SafeNet BuildProofs FactoryProps FilterProofs HistProofs FilterProps PoolProofs LayerExamples.
Local Open Scope nat_scope.

Lemma orNone_inv b i j : orNone b i = Z.of_nat j <-> b = true /\ i = j.
Proof. unfold orNone. destruct b; split; [intros; split; lia|intros [_ ->]; reflexivity|intros; lia|intros [? _]; discriminate]. Qed.
Lemma pool1D_row ks X K p i : p < K -> In (Z.of_nat i) (nth p (pool1D_index 1 ks X K) []) <-> in_tile1 X ks p i.
Proof.
  intros Hp. unfold pool1D_index. rewrite (nth_map_in _ _ _ _ 0) by (rewrite seq_length; lia). rewrite seq_nth by lia. cbn [plus]. cbv zeta. rewrite Nat.div_1_r, Nat.mod_1_r.
  rewrite in_map_iff. unfold in_tile1. split.
  - intros (dx & E & Hin). apply in_seq in Hin. apply orNone_inv in E as [E1 E2]. apply Nat.ltb_lt in E1. split; [lia|]. exists dx. lia.
  - intros (Hi & dx & Hd & E). exists dx. split; [|apply in_seq; lia]. apply orNone_inv. split; [apply Nat.ltb_lt; lia|lia].
Qed.
Lemma pool2D_row C X Y ks oX oY K q i : q < K -> 0 < C ->
  In (Z.of_nat i) (nth q (pool2D_index C X ks oX oY (C * X * Y) K) []) <-> in_tile2 C X Y ks (q / C mod oX) (q / C / oY) (q mod C) i.
Proof.
  intros Hp HC. unfold pool2D_index. rewrite (nth_map_in _ _ _ _ 0) by (rewrite seq_length; lia). rewrite seq_nth by lia. cbn [plus]. cbv zeta. unfold cells, in_tile2, cell2.
  pose proof (Nat.mod_upper_bound q C ltac:(lia)) as Hc. set (c := q mod C) in *. set (px := q / C mod oX). set (py := q / C / oY).
  rewrite in_flat_map. split.
  - intros (dy & Hy & Hin). apply in_map_iff in Hin as (dx & E & Hx). apply in_seq in Hy, Hx. apply orNone_inv in E as [E1 E2]. apply andb_prop in E1 as [E1 E3]. apply Nat.ltb_lt in E1, E3.
    exists dx, dy. split; [lia|]. split; [lia|]. assert (px * ks + dx < X) by nia. split; [assumption|]. split; [|lia].
    destruct (Nat.lt_ge_cases (py * ks + dy) Y) as [|HH]; [assumption|exfalso]. pose proof (Nat.mul_le_mono_r _ _ (X * C) HH). nia.
  - intros (dx & dy & Hx & Hy & H1 & H2 & E). exists dy. split; [apply in_seq; lia|]. apply in_map_iff. exists dx. split; [|apply in_seq; lia]. apply orNone_inv.
    split; [|lia]. apply andb_true_intro. split; apply Nat.ltb_lt; [nia|]. pose proof (grid_bound C X Y (px * ks + dx) (py * ks + dy) c Hc H1 H2). lia.
Qed.
Lemma tile_unique k p p' dx dx' : dx < k -> dx' < k -> p * k + dx = p' * k + dx' -> p = p'.
Proof.
  intros H1 H2 E. assert (E1 : p = (p * k + dx) / k) by (apply Nat.div_unique with dx; lia). rewrite E in E1. rewrite E1. symmetry. apply Nat.div_unique with dx'; lia.
Qed.
Lemma in_tile2_unique C X Y k px py c px' py' c' i : c < C -> c' < C -> in_tile2 C X Y k px py c i -> in_tile2 C X Y k px' py' c' i -> px = px' /\ py = py' /\ c = c'.
Proof.
  intros Hc Hc' (dx & dy & A1 & A2 & A3 & A4 & A5) (dx' & dy' & B1 & B2 & B3 & B4 & B5). unfold cell2 in *.
  assert (Ec : c = c'). { transitivity (i mod C); [|symmetry]; [apply Nat.mod_unique with ((py * k + dy) * X + (px * k + dx))|apply Nat.mod_unique with ((py' * k + dy') * X + (px' * k + dx'))]; lia. }
  subst c'. assert (E : (py * k + dy) * X + (px * k + dx) = (py' * k + dy') * X + (px' * k + dx')) by nia.
  assert (Ey : py * k + dy = py' * k + dy') by (eapply tile_unique; [exact A3|exact B3|exact E]). rewrite Ey in E. split; [|split; [|reflexivity]].
  - eapply tile_unique; [exact A1|exact B1|lia].
  - eapply tile_unique; [exact A2|exact B2|lia].
Qed.

Section C30.
Context {N : Num}.
Variable ok : @F N -> Prop.
Hypothesis OL : order_laws N ok.

Lemma pool_both kd f mi x k m opt e reset (cell : nat -> nat -> Prop) :
  match kd with Pool1D | Pool2D => True | _ => False end ->
  rowsOK (-1) k (f_nin f) (f_index f) -> Forall (fun row => exists i, In i row /\ (0 <= i)%Z) (f_index f) ->
  m = List.length (f_index f) -> m = List.length mi -> f_kernels f = m -> List.length x = k -> Forall ok x -> List.length e = m ->
  (forall p i, p < m -> In (Z.of_nat i) (nth p (f_index f) []) <-> cell p i) -> (forall p p' i, p < m -> p' < m -> cell p i -> cell p' i -> p = p') ->
  exists out b' r b2, body_output (BFilter kd (set_maxIndex f mi) []) x reset = Ok (out, b') /\ List.length out = m /\
    (forall p, p < m -> maximum_of x (cell p) (nth p out fzero)) /\
    body_back opt k b' e = Ok (r, b2) /\ List.length r = k /\
    exists arg : nat -> nat, (forall p, p < m -> cell p (arg p) /\ nth (arg p) x fzero = nth p out fzero /\ nth (arg p) r fzero = nth p e fzero) /\
      forall i, i < k -> (forall p, p < m -> arg p <> i) -> nth i r fzero = fzero.
Proof.
  intros Hkd HR Hex Hm Hm2 Hk Hx Hok He Hcell Hdis.
  destruct (pool_values ok OL k (set_maxIndex f mi) x m HR Hex Hm Hm2 Hk Hx Hok) as (best & E & L & HB). cbn [f_index set_maxIndex] in *.
  assert (HB2 : forall p, p < m -> exists b, nth_error best p = Some (Z.of_nat b) /\ b < k /\ cell p b /\ forall i, cell p i -> fltb (nth b x fzero) (nth i x fzero) = false).
  { intros p Hp. destruct (nth_error best p) as [b|] eqn:Eb; [|apply nth_error_None in Eb; lia]. destruct (HB p b Eb) as (row & Er & Hin & Hr & Hmax).
    apply nth_error_nth with (d := []) in Er. subst row. exists (Z.to_nat b). rewrite Z2Nat.id by lia. split; [reflexivity|]. split; [lia|]. split.
    - apply Hcell; [exact Hp|]. now rewrite Z2Nat.id by lia.
    - intros i Hi. apply Hcell in Hi; [|exact Hp]. specialize (Hmax _ Hi ltac:(lia)). now rewrite Nat2Z.id in Hmax. }
  destruct (pool_back_values k (set_maxIndex f best) e) as (r & Er & Lr & H1 & H2); cbn [f_maxIndex set_maxIndex].
  { apply NoDup_nth_error. intros p p' Hp Epp. rewrite L in Hp. destruct (HB2 p Hp) as (b & Eb & _ & Cb & _).
    assert (Hp' : p' < m) by (rewrite <- L; apply nth_error_Some; congruence). destruct (HB2 p' Hp') as (b' & Eb' & _ & Cb' & _).
    assert (b = b') by (rewrite Eb, Eb' in Epp; injection Epp; lia). subst b'. eapply Hdis; eauto. }
  { lia. }
  { apply Forall_of_nth. intros p b Hb. destruct (HB p b Hb) as (_ & _ & _ & ? & _). assumption. }
  cbn [f_maxIndex set_maxIndex] in H1, H2.
  exists (map (fun b => nth (Z.to_nat b) x fzero) best), (BFilter kd (set_maxIndex (set_maxIndex f mi) best) []), r, (BFilter kd (set_maxIndex (set_maxIndex f mi) best) []).
  split. { cbn [body_output]. destruct kd; try contradiction; rewrite E; reflexivity. }
  split; [now rewrite map_length|].
  assert (Hval : forall p b, p < m -> nth_error best p = Some (Z.of_nat b) -> nth p (map (fun b => nth (Z.to_nat b) x fzero) best) fzero = nth b x fzero).
  { intros p b Hp Hb. rewrite (nth_map_in _ _ _ _ 0%Z) by lia. rewrite (nth_error_nth _ _ 0%Z Hb). now rewrite Nat2Z.id. }
  split. { intros p Hp. destruct (HB2 p Hp) as (b & Eb & Hb & Cb & Hmax). rewrite (Hval p b Hp Eb). split; [exists b; auto|exact Hmax]. }
  change (set_maxIndex (set_maxIndex f mi) best) with (set_maxIndex f best).
  split. { cbn [body_back]. destruct kd; try contradiction; rewrite Er; reflexivity. }
  split; [exact Lr|]. exists (fun p => Z.to_nat (nth p best 0%Z)). split.
  - intros p Hp. destruct (HB2 p Hp) as (b & Eb & Hb & Cb & Hmax). rewrite (nth_error_nth _ _ 0%Z Eb). rewrite Nat2Z.id. split; [exact Cb|]. split; [now rewrite (Hval p b Hp Eb)|].
    specialize (H1 p _ Eb). now rewrite Nat2Z.id in H1.
  - intros i Hi Hne. apply H2; [exact Hi|]. intros Hin. apply In_nth_error in Hin as (p & Hp). assert (p < m) by (rewrite <- L; apply nth_error_Some; congruence).
    apply (Hne p H). rewrite (nth_error_nth _ _ 0%Z Hp). apply Nat2Z.id.
Qed.

(* One channel, 1-D: output p is the maximum of the cells of tile p; the backward pass puts error p on a cell of tile p that has this
   maximum and zero everywhere else (missing: several channels, see the refutation). *)
Theorem C30_pooling1D_partial : forall (d : LDesc) (s : list nat) (X k : nat) (l : Layer) (v e : list F) reset opt,
  d_type d = t_pool -> d_ksize d = Z.of_nat k -> (s = [1; X] \/ s = [X]) -> 0 < X -> layer_of d s l ->
  List.length v = X -> Forall ok v -> List.length e = covering X k ->
  exists out b' r b2, body_output (l_body l) v reset = Ok (out, b') /\ List.length out = covering X k /\
    (forall p, p < covering X k -> maximum_of v (in_tile1 X k p) (nth p out fzero)) /\
    body_back opt (l_in l) b' e = Ok (r, b2) /\ List.length r = X /\
    exists arg : nat -> nat,
      (forall p, p < covering X k -> in_tile1 X k p (arg p) /\ nth (arg p) v fzero = nth p out fzero /\ nth (arg p) r fzero = nth p e fzero) /\
      forall i, i < X -> (forall p, p < covering X k -> arg p <> i) -> nth i r fzero = fzero.
Proof.
  intros d s X k l v e reset opt Ht Hk Hs HX HL Hv Hok He.
  assert (Hpos : Forall (fun x => 0 < x) s) by (destruct Hs as [->| ->]; repeat constructor; auto).
  assert (Hsane : sane_kernel d) by (unfold sane_kernel; rewrite Ht; lia).
  destruct (layer_of_wf d s l HL Hpos Hsane) as (draws & masks & l0 & B & W0 & W & SL & SS).
  { intros ? ? l0 B. destruct B; try congruence; [|subst s; destruct Hs as [Hs|Hs]; discriminate].
    cbn [supported_pooling finish l_body f_shapeIn nth]. destruct H0 as [->|[-> ->]]; [|reflexivity]. destruct Hs as [Hs|Hs]; [injection Hs; auto|discriminate]. }
  destruct B; try congruence; [|subst s; destruct Hs as [Hs|Hs]; discriminate].
  assert (E1 : c = 1 /\ x = X) by (destruct H0 as [H0|[H0 ?]], Hs as [Hs|Hs]; rewrite H0 in Hs; try discriminate; injection Hs; intros; subst; auto). destruct E1 as [-> ->].
  assert (ks = k) by lia. subst ks. rewrite !Nat.mul_1_l in *. rewrite <- (tiles_covering X k) in * by auto.
  destruct (pool_state _ _ _ _ _ _ _ _ SL W I) as (mi & Eb & Hh & Hm & Hin & Hkk). cbn [f_index f_kernels] in *.
  assert (Ecc : cell_count s = X) by (destruct Hs as [->| ->]; unfold cell_count; cbn; lia).
  rewrite Eb, Hin, Ecc. destruct (tiles_spec X k H2 HX) as (T1 & T2 & T3).
  apply pool_both; cbn [f_nin f_index f_kernels]; auto; try lia.
  - apply pool1D_rows.
  - now apply pool1D_nonempty.
  - intros p i Hp. now apply pool1D_row.
  - intros p p' i _ _ (_ & dx & D1 & D2) (_ & dx' & D3 & D4). eapply tile_unique; [exact D1|exact D3|lia].
Qed.
(* 2-D, any number of channels, as many tiles in both directions (missing: the other shapes, see the refutations). *)
Theorem C30_pooling2D_partial : forall (d : LDesc) (C X Y k : nat) (l : Layer) (v e : list F) reset opt,
  d_type d = t_pool -> d_ksize d = Z.of_nat k -> 0 < C -> 0 < X -> 0 < Y -> covering X k = covering Y k -> layer_of d [C; X; Y] l ->
  List.length v = C * X * Y -> Forall ok v -> List.length e = C * covering X k * covering Y k ->
  let at_ := fun px py c => (py * covering X k + px) * C + c in
  exists out b' r b2, body_output (l_body l) v reset = Ok (out, b') /\ List.length out = C * covering X k * covering Y k /\
    (forall px py c, px < covering X k -> py < covering Y k -> c < C -> maximum_of v (in_tile2 C X Y k px py c) (nth (at_ px py c) out fzero)) /\
    body_back opt (l_in l) b' e = Ok (r, b2) /\ List.length r = C * X * Y /\
    exists arg : nat -> nat -> nat -> nat,
      (forall px py c, px < covering X k -> py < covering Y k -> c < C -> in_tile2 C X Y k px py c (arg px py c) /\
         nth (arg px py c) v fzero = nth (at_ px py c) out fzero /\ nth (arg px py c) r fzero = nth (at_ px py c) e fzero) /\
      forall i, i < C * X * Y -> (forall px py c, px < covering X k -> py < covering Y k -> c < C -> arg px py c <> i) -> nth i r fzero = fzero.
Proof.
  intros d C X Y k l v e reset opt Ht Hk HC HX HY HE HL Hv Hok He.
  assert (Hpos : Forall (fun x => 0 < x) [C; X; Y]) by (repeat constructor; auto).
  assert (Hsane : sane_kernel d) by (unfold sane_kernel; rewrite Ht; lia).
  destruct (layer_of_wf d [C; X; Y] l HL Hpos Hsane) as (draws & masks & l0 & B & W0 & W & SL & SS).
  { intros ? ? l0 B. destruct B; try congruence; [destruct H0 as [H0|[H0 _]]; discriminate|]. injection H0 as <- <- <-. cbn [supported_pooling finish l_body f_shapeOut nth].
    assert (ks = k) by lia. subst ks. rewrite !tiles_covering by auto. lia. }
  destruct B; try congruence; [destruct H0 as [H0|[H0 _]]; discriminate|].
  injection H0 as <- <- <-. assert (ks = k) by lia. subst ks. rewrite <- (tiles_covering X k), <- (tiles_covering Y k) in * by auto.
  destruct (pool_state _ _ _ _ _ _ _ _ SL W I) as (mi & Eb & Hh & Hm & Hin & Hkk). cbn [f_index f_kernels] in *. rewrite cells3 in Hin. rewrite Eb, Hin.
  destruct (tiles_spec X k H2 HX) as (T1 & T2 & T3). destruct (tiles_spec Y k H2 HY) as (T4 & T5 & T6). set (oX := tiles X k) in *. set (oY := tiles Y k) in *. pose (at_ := fun px py c => (py * oX + px) * C + c).
  set (f := mkFilter C (C * oX * oY) 0 0 k (k * k) [C; X; Y] [C; oX; oY] (pool2D_index C X k oX oY (C * X * Y) (C * oX * oY)) (C * oX * oY) (repeat 0%Z (C * oX * oY))) in *.
  set (cell := fun q i => in_tile2 C X Y k (q / C mod oX) (q / C / oY) (q mod C) i).
  assert (Hat : forall px py c, px < oX -> py < oY -> c < C -> at_ px py c < C * oX * oY /\ at_ px py c / C = py * oX + px /\ at_ px py c mod C = c /\ at_ px py c / C mod oX = px /\ at_ px py c / C / oY = py).
  { intros px py c Hpx Hpy Hc. unfold at_. fold oX. assert (E : (py * oX + px) * C + c < C * oX * oY) by (apply grid_bound; auto).
    assert (E1 : ((py * oX + px) * C + c) / C = py * oX + px) by (symmetry; apply Nat.div_unique with c; lia). rewrite E1. split; [exact E|]. split; [reflexivity|]. split; [symmetry; apply Nat.mod_unique with (py * oX + px); lia|].
    split; [symmetry; apply Nat.mod_unique with py; lia|]. rewrite <- HE. symmetry. apply Nat.div_unique with px; lia. }
  destruct (pool_both Pool2D f mi v (C * X * Y) (C * oX * oY) opt e reset cell) as (out & b' & r & b2 & E & Lo & Hmax & Er & Lr & arg & Ha & Hz); cbn [f f_nin f_index f_kernels]; auto; try lia.
  - apply pool2D_rows.
  - apply pool2D_nonempty; auto. lia.
  - intros p i Hp. now apply pool2D_row.
  - intros p p' i Hp Hp' A B. unfold cell in *. pose proof (Nat.mod_upper_bound p C ltac:(lia)). pose proof (Nat.mod_upper_bound p' C ltac:(lia)).
    destruct (in_tile2_unique C X Y k _ _ _ _ _ _ i H0 H5 A B) as (E1 & E2 & E3).
    rewrite <- HE in E2. assert (E4 : p / C = p' / C) by (rewrite (Nat.div_mod (p / C) oX), (Nat.div_mod (p' / C) oX), E1, E2 by lia; reflexivity).
    rewrite (Nat.div_mod p C), (Nat.div_mod p' C), E3, E4 by lia. reflexivity.
  - exists out, b', r, b2. split; [exact E|]. split; [exact Lo|]. split.
    { intros px py c Hpx Hpy Hc. destruct (Hat px py c Hpx Hpy Hc) as (A1 & A2 & A3 & A4 & A5). specialize (Hmax _ A1). unfold cell in Hmax. now rewrite A3, A4, A5 in Hmax. }
    split; [exact Er|]. split; [exact Lr|]. exists (fun px py c => arg (at_ px py c)). split.
    + intros px py c Hpx Hpy Hc. destruct (Hat px py c Hpx Hpy Hc) as (A1 & A2 & A3 & A4 & A5). specialize (Ha _ A1). unfold cell in Ha. now rewrite A3, A4, A5 in Ha.
    + intros i Hi Hne. apply Hz; [exact Hi|]. intros p Hp Eq.
      assert (Hc : p mod C < C) by (apply Nat.mod_upper_bound; lia). assert (Hpx : p / C mod oX < oX) by (apply Nat.mod_upper_bound; lia).
      assert (Hpy : p / C / oX < oY) by (apply Nat.div_lt_upper_bound; [lia|]; apply Nat.div_lt_upper_bound; lia).
      apply (Hne (p / C mod oX) (p / C / oX) (p mod C) Hpx Hpy Hc). rewrite <- Eq. f_equal. unfold at_. fold oX. pose proof (Nat.div_mod p C ltac:(lia)). pose proof (Nat.div_mod (p / C) oX ltac:(lia)). nia.
Qed.
End C30.
Print Assumptions C30_pooling1D_partial.
Print Assumptions C30_pooling2D_partial.
(* the order laws hold of all reals and of all binary32 values that are not NaN *)
Theorem C30_orders : order_laws RNum (fun _ => True) /\ order_laws N32 not_nan.
Proof. split; [exact order_laws_R|apply order_laws_32]. Qed.

(* ---------- what fails ---------- *)
Section R.
Context {N : Num}.
(* 1-D with several channels: whatever is computed has one value per tile, not one per tile and channel. *)
Theorem C30_channels1D_refuted : forall draws masks (d : LDesc) (C X k : nat) (l : Layer) (v out : list F) reset b',
  d_type d = t_pool -> d_ksize d = Z.of_nat k -> 1 < C -> 0 < X -> build_layer draws masks d (map Z.of_nat [C; X]) = Ok l ->
  body_output (l_body l) v reset = Ok (out, b') ->
  List.length out = covering X k /\ getShapeOfOutput l = [C; covering X k] /\ List.length out < C * covering X k.
Proof.
  intros draws masks d C X k l v out reset b' Ht Hk HC HX HB E.
  apply build_layer_built in HB; [|repeat constructor; lia|unfold sane_kernel; rewrite Ht; lia]. destruct HB; try congruence.
  destruct H0 as [H0|[H0 _]]; [|discriminate]. injection H0 as <- <-. assert (ks = k) by lia. subst ks. destruct (tiles_spec X k H2 HX) as (T1 & _). rewrite <- tiles_covering by auto.
  cbn [finish l_body body_output] in E. apply bind_Ok_inv in E as ([o f'] & E & E2). injection E2 as <- <-. unfold pool_output in E.
  destruct (_ <? _) in E; [discriminate|]. apply bind_Ok_inv in E as (best & _ & E). apply bind_Ok_inv in E as (os & _ & E). apply bind_Ok_inv in E as (os2 & Ef & E). injection E as <- _.
  cbn [f_kernels] in Ef. unfold fill in Ef. destruct (Nat.leb_spec (List.length os) (tiles X k)); [|discriminate]. injection Ef as <-.
  rewrite app_length, repeat_length. split; [lia|]. split; [reflexivity|]. nia.
Qed.
(* 2-D with more columns than rows of tiles: undefined behaviour on every input. *)
Lemma maxIndexOf_none f x row : List.length row = f_nin f -> Forall (fun i => i < 0)%Z row -> maxIndexOf f x row = Ok (-1)%Z.
Proof.
  intros L H. unfold maxIndexOf. match goal with |- context [ofold ?f0 _ _] => set (step := f0) end.
  assert (G : forall n, n <= f_nin f -> ofold step (seq 0 n) (-1)%Z = Ok (-1)%Z); [|apply G; lia].
  induction n as [|n IH]; intros Hn; [reflexivity|]. rewrite seq_S, ofold_app, IH by lia. cbn [bind ofold plus]. unfold step at 1. rewrite (lget_nth _ _ 0%Z) by lia. cbn [bind].
  rewrite Forall_forall in H. assert (Hin : In (nth n row 0%Z) row) by (apply nth_In; lia). specialize (H _ Hin). destruct (Z.leb_spec 0 (nth n row 0)%Z); [lia|reflexivity].
Qed.
Lemma omap_UB {A B} (f : A -> outcome B) l p a : (forall x, In x l -> (exists b, f x = Ok b) \/ f x = UB) -> nth_error l p = Some a -> f a = UB -> omap f l = UB.
Proof.
  revert p. induction l as [|b t IH]; intros p Hall Hp Ha; [destruct p; discriminate|]. cbn [omap]. destruct p as [|p]; [injection Hp as ->; now rewrite Ha|].
  destruct (Hall b (or_introl eq_refl)) as [(c & ->)| ->]; [|reflexivity]. cbn [bind]. rewrite (IH p); auto. intros; apply Hall; now right.
Qed.
Theorem C30_wide2D_refuted : forall draws masks (d : LDesc) (C X Y k : nat) (l : Layer) (v : list F) reset,
  d_type d = t_pool -> d_ksize d = Z.of_nat k -> 0 < C -> 0 < X -> 0 < Y -> covering Y k < covering X k ->
  build_layer draws masks d (map Z.of_nat [C; X; Y]) = Ok l -> List.length v = C * X * Y -> body_output (l_body l) v reset = UB.
Proof.
  intros draws masks d C X Y k l v reset Ht Hk HC HX HY HE HB Hv.
  apply build_layer_built in HB; [|repeat constructor; lia|unfold sane_kernel; rewrite Ht; lia]. destruct HB; try congruence; [destruct H0 as [H0|[H0 _]]; discriminate|].
  injection H0 as <- <- <-. assert (ks = k) by lia. subst ks. rewrite <- !tiles_covering in HE by auto. destruct (tiles_spec X k H2 HX) as (T1 & T2 & T3). destruct (tiles_spec Y k H2 HY) as (T4 & T5 & T6).
  set (oX := tiles X k) in *. set (oY := tiles Y k) in *. cbn [finish l_body body_output]. unfold pool_output. cbn [f_maxIndex f_index].
  assert (Li : List.length (pool2D_index C X k oX oY (C * X * Y) (C * oX * oY)) = C * oX * oY) by (unfold pool2D_index; now rewrite map_length, seq_length).
  rewrite Li, repeat_length, Nat.ltb_irrefl.
  set (f := mkFilter C (C * oX * oY) 0 0 k (k * k) [C; X; Y] [C; oX; oY] (pool2D_index C X k oX oY (C * X * Y) (C * oX * oY)) (C * oX * oY) (repeat 0%Z (C * oX * oY))).
  set (q := oY * oY * C). assert (Hq : q < C * oX * oY) by (unfold q; assert (0 < oY * C) by nia; pose proof (proj1 (Nat.mul_lt_mono_pos_r (oY * C) oY oX H0) HE); lia).
  assert (Eq : q / C = oY * oY) by (unfold q; apply Nat.div_mul; lia).
  set (rows := pool2D_index C X k oX oY (C * X * Y) (C * oX * oY)). pose proof (pool2D_rows C X k oX oY (C * X * Y) (C * oX * oY) : rowsOK (-1) (C * X * Y) (k * k) rows) as HR.
  set (row := nth q rows []). assert (Hrow : In row rows) by (apply nth_In; unfold rows; rewrite Li; exact Hq). destruct (rows_in _ _ _ _ _ HR Hrow) as [Lr Hr].
  assert (Hneg : Forall (fun i => i < 0)%Z row).
  { apply Forall_forall. intros i Hi. destruct (Z.ltb_spec i 0); [assumption|exfalso]. replace i with (Z.of_nat (Z.to_nat i)) in Hi by lia. unfold row, rows in Hi. apply pool2D_row in Hi; [|exact Hq|exact HC].
    rewrite Eq, Nat.div_mul in Hi by lia. destruct Hi as (dx & dy & _ & _ & _ & D & _). nia. }
  assert (Hres : forall r0, In r0 rows -> exists b, maxIndexOf f v r0 = Ok b /\ (-1 <= b < Z.of_nat (C * X * Y))%Z).
  { intros r0 H0. destruct (rows_in _ _ _ _ _ HR H0) as [L0 F0]. destruct (Exists_dec (fun i => 0 <= i)%Z r0 (fun i => Z_le_dec 0 i)) as [Hex|Hex].
    - apply Exists_exists in Hex as (i & Hi & H9). destruct (maxIndexOf_ok f (C * X * Y) v r0 L0 F0 Hv (ex_intro _ i (conj Hi H9))) as (b & Eb & _ & Hb). exists b. split; [exact Eb|lia].
    - exists (-1)%Z. split; [|lia]. apply maxIndexOf_none; [exact L0|]. apply Forall_Exists_neg in Hex. eapply Forall_impl; [|exact Hex]. cbn. intros; lia. }
  assert (Ob : exists best, omap (maxIndexOf f v) rows = Ok best /\ Forall2 (fun r0 b => maxIndexOf f v r0 = Ok b /\ (-1 <= b < Z.of_nat (C * X * Y))%Z) rows best).
  { clear -Hres. induction rows as [|r0 t IH]; [exists []; auto|]. destruct (Hres r0 (or_introl eq_refl)) as (b & Eb & Hb). destruct IH as (bs & E & HF); [intros; apply Hres; now right|].
    exists (b :: bs). cbn [omap]. rewrite Eb. cbn [bind]. rewrite E. cbn [bind]. auto. }
  destruct Ob as (best & Eb & HF). rewrite Eb. cbn [bind].
  rewrite (omap_UB _ best q (-1)%Z); [reflexivity| | |reflexivity].
  - intros b Hb. apply In_nth_error in Hb as (p & Hp). assert (Hb : (-1 <= b < Z.of_nat (C * X * Y))%Z).
    { destruct (Forall2_nth _ _ _ HF p b Hp) as (r0 & _ & _ & ?). assumption. }
    destruct (Z.eq_dec b (-1)) as [->|]; [right; reflexivity|left]. rewrite (lgetZ_ok _ _ fzero) by lia. eauto.
  - assert (Hlen : q < List.length best) by (pose proof (Forall2_len _ _ _ HF); unfold rows in *; lia). destruct (nth_error best q) as [b|] eqn:Ep; [|apply nth_error_None in Ep; lia].
    destruct (Forall2_nth _ _ _ HF q b Ep) as (r0 & Er & E0 & _). apply nth_error_nth with (d := []) in Er. fold row in Er. subst r0. rewrite maxIndexOf_none in E0 by assumption. congruence.
Qed.
(* 2-D with more rows than columns of tiles: some cells are read by nobody. *)
Theorem C30_high2D_refuted : forall draws masks (d : LDesc) (C X Y k : nat) (l : Layer),
  d_type d = t_pool -> d_ksize d = Z.of_nat k -> 0 < C -> 0 < X -> 0 < Y -> covering X k < covering Y k ->
  build_layer draws masks d (map Z.of_nat [C; X; Y]) = Ok l ->
  exists x y, x < X /\ y < Y /\ forall (v v' : list F) reset, List.length v = C * X * Y -> List.length v' = C * X * Y ->
    (forall x' y' c, (x', y') <> (x, y) -> c < C -> x' < X -> y' < Y -> nth (cell2 C X x' y' c) v fzero = nth (cell2 C X x' y' c) v' fzero) ->
    forall out b, body_output (l_body l) v reset = Ok (out, b) -> exists b', body_output (l_body l) v' reset = Ok (out, b').
Proof.
  intros draws masks d C X Y k l Ht Hk HC HX HY HE HB.
  apply build_layer_built in HB; [|repeat constructor; lia|unfold sane_kernel; rewrite Ht; lia]. destruct HB; try congruence; [destruct H0 as [H0|[H0 _]]; discriminate|].
  injection H0 as <- <- <-. assert (ks = k) by lia. subst ks. rewrite <- !tiles_covering in HE by auto. destruct (tiles_spec X k H2 HX) as (T1 & T2 & T3). destruct (tiles_spec Y k H2 HY) as (T4 & T5 & T6).
  set (oX := tiles X k) in *. set (oY := tiles Y k) in *. exists 0, (oX * k). split; [lia|]. split; [nia|]. intros v v' reset Hv Hv' Hsame out b E.
  set (f := mkFilter C (C * oX * oY) 0 0 k (k * k) [C; X; Y] [C; oX; oY] (pool2D_index C X k oX oY (C * X * Y) (C * oX * oY)) (C * oX * oY) (repeat 0%Z (C * oX * oY))) in *.
  cbn [finish l_body body_output] in *. apply bind_Ok_inv in E as ([o f'] & E & E2). injection E2 as <- <-.
  assert (Hread : forall q i, q < C * oX * oY -> In (Z.of_nat i) (nth q (f_index f) []) -> nth i v fzero = nth i v' fzero).
  { intros q i Hq Hin. cbn [f f_index] in Hin. apply pool2D_row in Hin; [|exact Hq|exact HC]. destruct Hin as (dx & dy & D1 & D2 & D3 & D4 & ->).
    assert (q / C / oY < oX) by (apply Nat.div_lt_upper_bound; [lia|]; apply Nat.div_lt_upper_bound; lia).
    apply Hsame; [|apply Nat.mod_upper_bound; lia|exact D3|exact D4]. intros Eq. injection Eq as _ Eq. nia. }
  assert (Li : List.length (f_index f) = C * oX * oY) by (cbn [f f_index]; unfold pool2D_index; now rewrite map_length, seq_length).
  assert (HRI : rowsOK (-1) (C * X * Y) (k * k) (f_index f)) by (cbn [f f_index]; apply pool2D_rows).
  assert (Hrow : forall row, In row (f_index f) -> maxIndexOf f v row = maxIndexOf f v' row /\ forall i, maxIndexOf f v row = Ok i -> i = (-1)%Z \/ In i row).
  { intros row Hin. pose proof Hin as Hin2. apply In_nth_error in Hin2 as (q & Hq). assert (Hq2 : q < C * oX * oY) by (rewrite <- Li; apply nth_error_Some; congruence). apply nth_error_nth with (d := []) in Hq.
    destruct (rows_in _ _ _ _ _ HRI Hin) as [Lr Hr]. rewrite Forall_forall in Hr.
    unfold maxIndexOf. match goal with |- ofold ?f1 _ _ = ofold ?f2 _ _ /\ _ => set (s1 := f1); set (s2 := f2) end.
    assert (G : forall n, n <= f_nin f -> ofold s1 (seq 0 n) (-1)%Z = ofold s2 (seq 0 n) (-1)%Z /\ forall i, ofold s1 (seq 0 n) (-1)%Z = Ok i -> i = (-1)%Z \/ In i row); [|apply G; lia].
    induction n as [|n IH]; intros Hn; [split; [reflexivity|]; intros i [= <-]; auto|]. destruct IH as [IH1 IH2]; [lia|]. rewrite seq_S, !ofold_app, <- IH1.
    destruct (ofold s1 (seq 0 n) (-1)%Z) as [bst| |]; cbn [bind ofold plus]; [|split; [reflexivity|discriminate]..]. specialize (IH2 bst eq_refl). unfold s1, s2. cbn [f f_nin] in Hn, Lr.
    rewrite (lget_nth _ _ 0%Z) by lia. cbn [bind]. set (j := nth n row 0%Z). assert (Hj : In j row) by (apply nth_In; lia). destruct (Z.leb_spec 0 j) as [Hj0|Hj0].
    2: { split; [reflexivity|]. intros i [= <-]. auto. }
    destruct (Z.eqb_spec bst (-1)) as [->|Hb1]; [split; [reflexivity|]; intros i [= <-]; auto|]. destruct IH2 as [->|Hb]; [congruence|].
    pose proof (Hr j Hj). pose proof (Hr bst Hb). rewrite !(lgetZ_ok _ _ fzero) by lia. cbn [bind].
    assert (Ev : forall i, In i row -> (0 <= i)%Z -> nth (Z.to_nat i) v fzero = nth (Z.to_nat i) v' fzero) by (intros i Hi Hi0; apply (Hread q); [exact Hq2|]; rewrite Hq, Z2Nat.id by lia; exact Hi).
    rewrite (Ev j), (Ev bst) by (auto; lia). split; [reflexivity|]. intros i [= <-]. destruct (fgeb _ _); auto. }
  unfold pool_output in E |- *. destruct (_ <? _); [discriminate|].
  assert (Eo : omap (maxIndexOf f v') (f_index f) = omap (maxIndexOf f v) (f_index f)).
  { clear -Hrow. induction (f_index f) as [|r t IH]; [reflexivity|]. cbn [omap]. destruct (Hrow r (or_introl eq_refl)) as [<- _]. rewrite IH; [reflexivity|]. intros; apply Hrow; now right. }
  rewrite Eo. apply bind_Ok_inv in E as (best & Eb & E). rewrite Eb. cbn [bind]. apply bind_Ok_inv in E as (os & Ev & E).
  assert (Ev' : omap (fun b => lgetZ v' b) best = Ok os).
  { rewrite <- Ev. assert (Hb : forall bb, In bb best -> lgetZ v' bb = lgetZ v bb).
    { intros bb Hbb. apply In_nth_error in Hbb as (q & Hq). assert (q < List.length best) by (apply nth_error_Some; congruence). rewrite (omap_Ok_length _ _ _ Eb) in H0.
      destruct (nth_error (f_index f) q) as [row|] eqn:Er; [|apply nth_error_None in Er; lia]. destruct (omap_Ok_nth _ _ _ _ _ Eb Er) as (b2 & E1 & E2). rewrite Hq in E2. injection E2 as <-.
      destruct (Hrow row (nth_error_In _ _ Er)) as [_ Hi]. specialize (Hi bb E1). destruct Hi as [->|Hi]; [reflexivity|]. destruct (rows_in _ _ _ _ _ HRI (nth_error_In _ _ Er)) as [_ Hr]. rewrite Forall_forall in Hr. specialize (Hr bb Hi).
      destruct (Z.ltb_spec bb 0); [unfold lgetZ; destruct (Z.ltb_spec bb 0); [reflexivity|lia]|]. rewrite !(lgetZ_ok _ _ fzero) by lia. f_equal. symmetry. apply (Hread q); [lia|]. rewrite (nth_error_nth _ _ [] Er), Z2Nat.id by lia. exact Hi. }
    clear -Hb. induction best as [|bb t IH]; [reflexivity|]. cbn [omap]. rewrite Hb by now left. rewrite IH; [reflexivity|]. intros; apply Hb; now right. }
  rewrite Ev'. cbn [bind]. apply bind_Ok_inv in E as (o2 & Ef & E). rewrite Ef. cbn [bind]. injection E as <- _. eauto.
Qed.
End R.
Print Assumptions C30_channels1D_refuted.
Print Assumptions C30_wide2D_refuted.
Print Assumptions C30_high2D_refuted.
