(* Vocabulary for C34 in binary32: what is asked of the library function expf. *)
From Coq Require Import Reals.
From Flocq Require Import Core.Core.
From Verif Require Import Base Num Float32.
Local Open Scope R_scope.

(* expf of a non-positive float is a float between 0 and 1, expf 0 = 1, and expf never decreases; nothing is asked about its accuracy *)
Record sound_exp (expf : f32 -> f32) : Prop := {
  exp_range : forall x r, fin32 x r -> r <= 0 -> exists e, fin32 (expf x) e /\ 0 <= e <= 1;
  exp_zero : forall x, fin32 x 0 -> fin32 (expf x) 1;
  exp_grows : forall x y a b ea eb, fin32 x a -> fin32 y b -> a <= b -> b <= 0 -> fin32 (expf x) ea -> fin32 (expf y) eb -> ea <= eb
}.
(* outputs that are finite floats of these values, none above 2^126 *)
Definition moderate (v : list f32) (values : list R) : Prop := Forall2 fin32 v values /\ Forall (fun a => Rabs a <= bpow radix2 126) values.
