(* Model of include/snn/neural_network/Wait.hpp and src/neural_network/Wait.cpp.
   Left out: tick/getDuration/getDurationAndReset (log messages only). The system clock enters as the number
   of milliseconds elapsed since startClock. *)
From Verif Require Import Base Num ToolsModel.
Local Open Scope outcome_scope.

(* Wait.hpp 6-11 *)
Inductive waitOperator := noneOp | andOp | orOp.

Section W.
Context {N : Num}.

(* Wait.hpp 13-22 *)
Record Wait := mkWait { w_epochs : Z; w_accuracy : F; w_mae : F; w_duration : Z; w_op : waitOperator }.
Definition defaultWait : Wait := mkWait (-1) (fofZ (-1)) (fofZ (-1)) (-1) noneOp.

(* Wait.cpp 10-35.  The call mutates and returns its left operand; here the new value is returned. *)
Definition wait_or (a b : Wait) : outcome Wait :=
  match w_op a with
  | andOp => Throw "Cannot mix || and && operator for waitFor."
  | _ =>
    Ok (mkWait
      (if (0 <? w_epochs a)%Z && (0 <? w_epochs b)%Z then Z.min (w_epochs a) (w_epochs b)
       else Z.max (w_epochs a) (w_epochs b))
      (if fgtb (w_accuracy a) fzero && fgtb (w_accuracy b) fzero then fmin (w_accuracy a) (w_accuracy b)
       else fmax (w_accuracy a) (w_accuracy b))
      (fmax (w_mae a) (w_mae b))
      (if (0 <? w_duration a)%Z && (0 <? w_duration b)%Z then Z.min (w_duration a) (w_duration b)
       else Z.max (w_duration a) (w_duration b))
      orOp)
  end.

(* Wait.cpp 37-56 *)
Definition wait_and (a b : Wait) : outcome Wait :=
  match w_op a with
  | orOp => Throw "Cannot mix || and && operator for waitFor."
  | _ =>
    let mae1 := if fgtb (w_mae a) fzero && (0 <? w_duration b)%Z
                then fmin (w_mae a) (w_mae b) else fmax (w_mae a) (w_mae b) in
    Ok (mkWait
      (Z.max (w_epochs a) (w_epochs b))
      (fmax (w_accuracy a) (w_accuracy b))
      (fmin mae1 (w_mae b))
      (Z.max (w_duration a) (w_duration b))
      andOp)
  end.

(* Wait.cpp 65-88; elapsed = milliseconds since start, cast to int *)
Definition isOver (w : Wait) (elapsed : Z) (epochs : Z) (acc mae : F) : bool :=
  let currentDuration := to_int elapsed in
  let isValidEpochs := (w_epochs w <? epochs)%Z && (0 <? epochs)%Z in
  let isValidAccuracy := fgeb acc (w_accuracy w) && fgtb acc fzero in
  let isValidMae := fleb mae (w_mae w) && fgtb mae fzero in
  let isValidDuration := (w_duration w <=? currentDuration)%Z in
  match w_op w with
  | andOp => (isValidEpochs || (w_epochs w <? 0)%Z) && (isValidAccuracy || fltb (w_accuracy w) fzero)
             && (isValidMae || fltb (w_mae w) fzero) && (isValidDuration || (w_duration w <? 0)%Z)
  | _ => (isValidEpochs && (0 <=? w_epochs w)%Z) || (isValidAccuracy && fgeb (w_accuracy w) fzero)
         || (isValidMae && fgeb (w_mae w) fzero) || (isValidDuration && (0 <=? w_duration w)%Z)
  end.

(* Wait.cpp 114-154: the literals; the integer argument is an unsigned 64-bit value cast to int, the
   floating argument is given already rounded to float *)
Definition lit_ep (n : Z) : Wait := mkWait (to_int n) (fofZ (-1)) (fofZ (-1)) (-1) noneOp.
Definition lit_acc (v : F) : Wait := mkWait (-1) v (fofZ (-1)) (-1) noneOp.
Definition lit_mae (v : F) : Wait := mkWait (-1) (fofZ (-1)) v (-1) noneOp.
Definition lit_ms (n : Z) : Wait := mkWait (-1) (fofZ (-1)) (fofZ (-1)) (to_int n) noneOp.
Definition lit_s (n : Z) : outcome Wait :=
  let* d := i32 (to_int n * 1000) in Ok (mkWait (-1) (fofZ (-1)) (fofZ (-1)) d noneOp).
Definition lit_min (n : Z) : outcome Wait :=
  let* d := i32 (to_int n * 1000) in let* d' := i32 (d * 60) in
  Ok (mkWait (-1) (fofZ (-1)) (fofZ (-1)) d' noneOp).
End W.
