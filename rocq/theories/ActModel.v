(* Model of include/snn/neural_network/layer/neuron/activation_function/*.hpp and
   src/neural_network/layer/neuron/activation_function/ActivationFunction.cpp.
   powf(y, 2) is modelled as y * y; tanh/tanhf and exp are the libm functions of [Num]; GELU's intermediate
   promotion to double (plain `tanh`, if the double overload is the one found) is not modelled. *)
From Verif Require Import Base Num.

(* ActivationFunction.hpp 8-17 *)
Inductive activation := a_sigmoid | a_iSigmoid | a_tanh | a_ReLU | a_GELU | a_gaussian | a_identity.

Section A.
Context {N : Num}.

Definition fsqr (x : F) : F := fmul x x.
(* GELU.hpp 24, 29: tanh(1.702f * x / 2.0f) *)
Definition gelu_t (x : F) : F := ftanh (fdiv (fmul (flit 1702 1000) x) (fofZ 2)).

(* the `function` members: Sigmoid.hpp 22-25, ImprovedSigmoid.hpp 22-25, Tanh.hpp 22-25, ReLU.hpp 22-25,
   GELU.hpp 22-25, Gaussian.hpp 22-25, Identity.hpp 22-25 *)
Definition act (a : activation) (x : F) : F :=
  match a with
  | a_sigmoid => fdiv (fadd (ftanh (fdiv x (fofZ 2))) fone) (fofZ 2)
  | a_iSigmoid => fadd (fdiv fone (fadd fone (fexp (fopp x)))) (fmul x (flit 5 100))
  | a_tanh => ftanh x
  | a_ReLU => if fgtb x fzero then x else fzero
  | a_GELU => fdiv (fmul x (fadd (gelu_t x) fone)) (fofZ 2)
  | a_gaussian => fexp (fopp (fsqr x))
  | a_identity => x
  end.
(* the `derivative` members: Sigmoid.hpp 27-30, ImprovedSigmoid.hpp 27-30, Tanh.hpp 27-30, ReLU.hpp 27-30,
   GELU.hpp 27-31, Gaussian.hpp 27-30, Identity.hpp 27-30 *)
Definition actd (a : activation) (x : F) : F :=
  match a with
  | a_sigmoid => fdiv (fsub fone (fsqr (ftanh (fdiv x (fofZ 2))))) (fofZ 4)
  | a_iSigmoid => fdiv (fexp x) (fsqr (fadd (fexp x) fone))
  | a_tanh => fsub fone (fsqr (ftanh x))
  | a_ReLU => if fgtb x fzero then fone else fzero
  | a_GELU => fadd (fdiv (fmul (fmul (flit 1702 1000) x) (fsub fone (fsqr (gelu_t x)))) (fofZ 4))
                   (fdiv (fadd (gelu_t x) fone) (fofZ 2))
  | a_gaussian => fmul (fmul (fofZ (-2)) x) (fexp (fopp (fsqr x)))
  | a_identity => fone
  end.
(* the declared min and max, None for an infinite bound: the constructors, lines 17-20 of each header *)
Definition act_min (a : activation) : option F :=
  match a with
  | a_sigmoid => Some fzero | a_iSigmoid => None | a_tanh => Some (fofZ (-1)) | a_ReLU => Some fzero
  | a_GELU => Some fzero | a_gaussian => Some fzero | a_identity => None
  end.
Definition act_max (a : activation) : option F :=
  match a with
  | a_sigmoid => Some fone | a_iSigmoid => None | a_tanh => Some fone | a_ReLU => None
  | a_GELU => None | a_gaussian => Some fone | a_identity => None
  end.
End A.
