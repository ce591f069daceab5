(* Model of include/snn/tools/Tools.hpp and src/tools/Tools.cpp. *)
From Coq Require Import DecimalString Decimal Ascii.
From Verif Require Import Base Num.
Local Open Scope outcome_scope.

(* C++ `int` (32-bit two's complement): an arithmetic result out of range is undefined behaviour,
   a conversion from a wider integer type wraps (C++20 [conv.integral]). *)
Definition int_max : Z := 2147483647.
Definition int_min : Z := -2147483648.
Definition in_int (z : Z) : bool := (int_min <=? z)%Z && (z <=? int_max)%Z.
Definition i32 (z : Z) : outcome Z := if in_int z then Ok z else UB.
Definition to_int (z : Z) : Z := ((z + 2147483648) mod 4294967296 - 2147483648)%Z.

(* std::to_string of an integer *)
Definition to_string (z : Z) : string := NilZero.string_of_int (Z.to_int z).

(* Tools.hpp 46-66: toString(std::chrono::milliseconds); count() is a signed 64-bit integer, modelled as Z *)
Definition toString (count : Z) : string :=
  if (3600000 <? count)%Z then
    (to_string (count / 3600000) ++ "h " ++ to_string (count / 60000) ++ "min")%string
  else if (60000 <? count)%Z then
    (to_string (count / 60000) ++ "min " ++ to_string (count / 1000) ++ "s")%string
  else if (1000 <? count)%Z then (to_string (count / 1000) ++ "s")%string
  else if (0 <? count)%Z then (to_string count ++ "ms")%string
  else ""%string.

Section V.
Context {N : Num}.
(* Tools.hpp 68-85: getMinValue *)
Definition getMinValue (v : list F) : outcome F :=
  match v with
  | v0 :: (_ :: _) as rest => Ok (fold_left (fun m x => if fltb x m then x else m) (tl v) v0)
  | _ => Throw "Vector is empty"
  end.
(* Tools.hpp 87-104: getMaxValue *)
Definition getMaxValue (v : list F) : outcome F :=
  match v with
  | v0 :: (_ :: _) as rest => Ok (fold_left (fun m x => if fgtb x m then x else m) (tl v) v0)
  | _ => Throw "Vector is empty"
  end.
End V.

(* Tools.hpp 126-133: toConstSizeString(int,size_t): the while loop prepends one space per turn; the loop is
   written as recursion on the number of missing characters. *)
Fixpoint pad (k : nat) (s : string) : string :=
  match k with O => s | S k' => pad k' (String " "%char s) end.
Definition toConstSizeString (value : Z) (len : nat) : string :=
  let str := to_string value in pad (len - String.length str) str.

(* Tools.hpp 153-164: flatten(vector2D); reserve has no observable effect *)
Definition flattenV {A} (v : list (list A)) : list A := fold_left (fun acc x => acc ++ x) v [].

(* Tools.hpp 166-169: flatten(x,y,maxX) *)
Definition flatten2 (x y maxX : Z) : outcome Z :=
  let* a := i32 (y * maxX) in i32 (a + x).
(* Tools.hpp 171-174: flatten(x,y,z,maxX,maxY) = z*maxY*maxX + y*maxX + x *)
Definition flatten3 (x y z maxX maxY : Z) : outcome Z :=
  let* a := i32 (z * maxY) in let* b := i32 (a * maxX) in
  let* c := i32 (y * maxX) in let* d := i32 (b + c) in i32 (d + x).
(* C++ % and / on int: truncated; divisor 0 is undefined behaviour *)
Definition irem (a b : Z) : outcome Z := if (b =? 0)%Z then UB else Ok (Z.rem a b).
Definition iquot (a b : Z) : outcome Z := if (b =? 0)%Z then UB else i32 (Z.quot a b).
(* Tools.hpp 176-199 *)
Definition roughenX2 (index maxX : Z) : outcome Z := irem index maxX.
Definition roughenX3 (index maxX maxY : Z) : outcome Z :=
  let* p := i32 (maxX * maxY) in let* r := irem index p in irem r maxX.
Definition roughenY2 (index maxX : Z) : outcome Z := iquot index maxX.
Definition roughenY3 (index maxX maxY : Z) : outcome Z :=
  let* p := i32 (maxX * maxY) in let* r := irem index p in iquot r maxX.
Definition roughenZ3 (index maxX maxY : Z) : outcome Z :=
  let* p := i32 (maxX * maxY) in irem index p.

(* Tools.cpp 6-10: randomBetween(int,int).  The draw of the real distribution is a double, i.e. a rational
   num/den (den > 0) with min <= num/den < max; static_cast<int> truncates toward zero. *)
Definition randomBetweenInt (num : Z) (den : positive) : Z := Z.quot num (Zpos den).
