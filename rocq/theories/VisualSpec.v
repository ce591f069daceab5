(* Vocabulary for statements about pictures. *)
From Verif Require Import Base Num VisualModel.
Local Open Scope nat_scope.

(* the pixel in column x and row y; nothing outside the picture *)
Definition pixel_at (im : bitmap) (x y : nat) : option pixel :=
  if (x <? bm_width im) && (y <? bm_height im) then nth_error (bm_data im) (y * bm_width im + x) else None.
(* picture number c of a grid with [side] pictures in a row, each of X times Y pixels, with one pixel between neighbours *)
Definition column (side X c i : nat) : nat := (c mod side) * (X + 1) + i.
Definition row (side Y c j : nat) : nat := (c / side) * (Y + 1) + j.
(* the C pictures of X times Y pixels (picture c has at (i, j) the pixel [p c i j]) are all in [im], at different places, with black
   elsewhere *)
Definition shows (side C X Y : nat) (p : nat -> nat -> nat -> pixel) (im : bitmap) : Prop :=
  (forall c i j, c < C -> i < X -> j < Y -> pixel_at im (column side X c i) (row side Y c j) = Some (p c i j)) /\
  (forall c i j c' i' j', c < C -> i < X -> j < Y -> c' < C -> i' < X -> j' < Y ->
     column side X c i = column side X c' i' -> row side Y c j = row side Y c' j' -> c = c' /\ i = i' /\ j = j') /\
  (forall x y q, pixel_at im x y = Some q -> (forall c i j, c < C -> i < X -> j < Y -> ~ (x = column side X c i /\ y = row side Y c j)) -> q = black).
(* the smallest square grid with room for n pictures *)
Definition square_side (n side : nat) : Prop := n <= side * side /\ (side - 1) * (side - 1) < n.
(* ceil(sqrt(n)) is right for the sizes a network can have *)
Definition good_grid {N : Num} (cv : Conv) : Prop := forall n, 0 < n -> (Z.of_nat n <= 1000000)%Z -> square_side n (ceilSqrt cv n).
(* values that can be shown: 255 v, without its fractional part, is between 0 and 255 *)
Definition showable {N : Num} (cv : Conv) (v : F) (level : Z) : Prop := trunc cv (fmul v (fofZ 255)) = Some level /\ (0 <= level <= 255)%Z.
