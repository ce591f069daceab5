(* The arithmetic the C++ code performs on `float` values, as a plain record of operations.
   NO LAWS are assumed: a theorem quantified over [Num] holds for IEEE binary32 with any libm,
   as well as for exact real arithmetic. *)
From Coq Require Import Reals QArith SpecFloat.
From Verif Require Import Base.

Class Num : Type := {
  F : Type;
  fadd : F -> F -> F;
  fsub : F -> F -> F;
  fmul : F -> F -> F;
  fdiv : F -> F -> F;
  fltb : F -> F -> bool;           (* a < b  (false when unordered) *)
  fleb : F -> F -> bool;           (* a <= b *)
  feqb : F -> F -> bool;           (* a == b *)
  flit : Z -> positive -> F;       (* the literal n/d rounded to the type *)
  fabs : F -> F;
  fopp : F -> F;
  fsqrt : F -> F;
  fexp : F -> F;
  ftanh : F -> F;
  fnormal : F -> bool              (* fpclassify(x) is FP_NORMAL or FP_ZERO *)
}.

Definition fofZ {N : Num} (z : Z) : F := flit z 1.
Definition fzero {N : Num} : F := fofZ 0.
Definition fone {N : Num} : F := fofZ 1.
Definition fofnat {N : Num} (n : nat) : F := fofZ (Z.of_nat n).
(* a > b and a >= b as C++ comparisons *)
Definition fgtb {N : Num} (a b : F) : bool := fltb b a.
Definition fgeb {N : Num} (a b : F) : bool := fleb b a.
(* std::max(a,b) = (a < b) ? b : a ; std::min(a,b) = (b < a) ? b : a *)
Definition fmax {N : Num} (a b : F) : F := if fltb a b then b else a.
Definition fmin {N : Num} (a b : F) : F := if fltb b a then b else a.
(* std::accumulate(v, 0) *)
Definition fsum {N : Num} (l : list F) : F := fold_left fadd l fzero.

Declare Scope num_scope.
Delimit Scope num_scope with num.
Infix "+" := fadd : num_scope.
Infix "-" := fsub : num_scope.
Infix "*" := fmul : num_scope.
Infix "/" := fdiv : num_scope.

(* ---------------- instance 1: exact real arithmetic (standard library) ---------------- *)
Definition Rltb (a b : R) : bool := if Rlt_dec a b then true else false.
Definition Rleb (a b : R) : bool := if Rle_dec a b then true else false.
Definition Reqb (a b : R) : bool := if Req_EM_T a b then true else false.

Definition RNum : Num := {|
  F := R;
  fadd := Rplus; fsub := Rminus; fmul := Rmult; fdiv := Rdiv;
  fltb := Rltb; fleb := Rleb; feqb := Reqb;
  flit := fun n d => (IZR n / IZR (Zpos d))%R;
  fabs := Rabs; fopp := Ropp; fsqrt := R_sqrt.sqrt; fexp := Rtrigo_def.exp; ftanh := Rtrigo_def.tanh;
  fnormal := fun _ => true
|}.

(* ---------------- instance 2: IEEE-754 binary32, round to nearest even ----------------
   Coq.Floats.SpecFloat is the standard library's executable specification of IEEE arithmetic.
   exp and tanh are libm functions: parameters of the instance. *)
Definition prec32 : Z := 24%Z.
Definition emax32 : Z := 128%Z.
Definition f32 : Type := spec_float.
Definition f32_of_Z (z : Z) : f32 :=
  match z with
  | Z0 => S754_zero false
  | _ => binary_normalize prec32 emax32 z 0 (Z.ltb z 0)
  end.
Definition f32_normal (x : f32) : bool :=
  match x with
  | S754_zero _ => true
  | S754_infinity _ => false
  | S754_nan => false
  | S754_finite _ m _ => Z.eqb (Zpos (digits2_pos m)) prec32
  end.
Definition Num32 (expf tanhf : f32 -> f32) : Num := {|
  F := f32;
  fadd := SFadd prec32 emax32; fsub := SFsub prec32 emax32;
  fmul := SFmul prec32 emax32; fdiv := SFdiv prec32 emax32;
  fltb := SFltb; fleb := SFleb; feqb := SFeqb;
  flit := fun n d => SFdiv prec32 emax32 (f32_of_Z n) (f32_of_Z (Zpos d));
  fabs := SFabs; fopp := SFopp; fsqrt := SFsqrt prec32 emax32;
  fexp := expf; ftanh := tanhf;
  fnormal := f32_normal
|}.
(* binary32 with opaque stand-ins for libm, used for computed witnesses that do not involve them *)
Definition N32 : Num := Num32 (fun x => x) (fun x => x).
Definition b32 (n : Z) : f32 := f32_of_Z n.
Definition b32q (n : Z) (d : positive) : f32 := @flit N32 n d.
Definition b32_nan : f32 := S754_nan.
Definition b32_inf : f32 := S754_infinity false.
