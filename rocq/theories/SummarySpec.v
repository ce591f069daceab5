(* What a summary should say (C63). A text is read line by line; a line is a label and a value, and spaces do not matter around them. *)
From Coq Require Import Ascii.
From Verif Require Import Base Num ActModel LayerModel FactoryModel FactorySpec ToolsModel.
Local Open Scope string_scope.

Definition newline : string := String (ascii_of_nat 10) EmptyString.
Inductive blank : string -> Prop := blank_nil : blank "" | blank_cons s : blank s -> blank (String " "%char s).
(* the text is made of these lines, in this order; empty lines are allowed *)
Inductive lines : string -> list (string * string) -> Prop :=
| lines_nil : lines "" []
| lines_empty text es : lines text es -> lines (newline ++ text) es
| lines_cons a b label value text es : blank a -> blank b -> lines text es -> lines (a ++ label ++ b ++ value ++ newline ++ text) ((label, value) :: es).

Definition decimal (n : nat) : string := to_string (Z.of_nat n).
Fixpoint join (l : list string) : string := match l with [] => "" | [a] => a | a :: t => a ++ ", " ++ join t end.
Definition bracketed (s : list nat) : string := "[" ++ join (map decimal s) ++ "]".

Section S.
Context {N : Num}.
Variable show : F -> string.   (* how a float is printed *)
(* the shape a filter layer works on: a flat input has one channel *)
Definition with_channels (s : list nat) : list nat := channels s :: extents s.
(* k, kxk *)
Definition kernel_text (s : list nat) (k : nat) : string := match extents s with [_; _] => decimal k ++ "x" ++ decimal k | _ => decimal k end.
Definition rank_text (s : list nat) : string := match extents s with [_; _] => "2D" | _ => "1D" end.
Definition activation_text (a : activation) : string :=
  match a with a_sigmoid => "sigmoid" | a_iSigmoid => "iSigmoid" | a_tanh => "tanh" | a_ReLU => "ReLU" | a_GELU => "GELU" | a_gaussian => "gaussian" | a_identity => "identity" end.
Definition optimizer_text (o : odesc) : string :=
  match o with
  | d_dropout v => "Dropout(" ++ show v ++ ")" | d_l1 v => "L1Regularization(" ++ show v ++ ")" | d_l2 v => "L2Regularization(" ++ show v ++ ")"
  | d_mult v => "ErrorMultiplier(" ++ show v ++ ")" | d_softmax => "Softmax"
  end.
Definition optimizer_lines (os : list odesc) : list (string * string) :=
  match os with [] => [] | o :: t => ("Optimizers:", optimizer_text o) :: map (fun o => ("", optimizer_text o)) t end.
Definition layer_name (d : LDesc) (s : list nat) : string :=
  match d_type d with
  | t_full => "FullyConnected" | t_rec => "Recurrence" | t_gru => "GruLayer" | t_conv => "Convolution" ++ rank_text s | t_local => "LocallyConnected" ++ rank_text s
  | t_pool => "MaxPooling" ++ rank_text s | t_input => "Input"
  end.
(* what is said of the layer described by d when it is given an array of shape s, with these input and output shapes *)
Definition lines_with (i o : list nat) (d : LDesc) (s : list nat) : list (string * string) :=
  [("Input shape:", bracketed i)] ++
  (match d_type d with
   | t_full | t_rec | t_gru => [("Neurons:", decimal (Z.to_nat (d_neurons d)))]
   | t_pool => [("Kernel size:", kernel_text s (Z.to_nat (d_ksize d)))]
   | _ => [("Filters:", decimal (Z.to_nat (d_filters d))); ("Kernel size:", kernel_text s (Z.to_nat (d_ksize d)))]
   end) ++
  (match d_type d with t_pool => [] | _ => [("Parameters:", decimal (expected_parameters d s))] end) ++
  (match d_type d with t_pool | t_gru => [] | _ => [("Activation:", activation_text (d_act d))] end) ++
  [("Output shape:", bracketed o)] ++
  optimizer_lines (d_opts d).
(* the shape a layer takes: a dense layer takes the values in a row *)
Definition taken (d : LDesc) (s : list nat) : list nat := match d_type d with t_full | t_rec | t_gru => [cell_count s] | _ => with_channels s end.
(* what should be said *)
Definition layer_lines (d : LDesc) (s : list nat) := lines_with (taken d s) (expected_shape d s) d s.
(* a paragraph: a rule, the name, then the lines. [sep] is what separates the name from the first line *)
Definition paragraph (sep : string) (ls : list (string * string)) (d : LDesc) (s : list nat) (text : string) : Prop :=
  exists body, text = "------------------------------------------------------------" ++ newline ++ " " ++ layer_name d s ++ sep ++ body /\ lines body ls.
(* what the paragraph of a layer really is: the name of a locally connected layer is not followed by a newline, and the input and output
   shapes of the recurrent layers are exchanged *)
Definition described (d : LDesc) (s : list nat) (text : string) : Prop :=
  match d_type d with
  | t_local => paragraph "" (layer_lines d s) d s text
  | t_rec | t_gru => paragraph newline (lines_with (expected_shape d s) (taken d s) d s) d s text
  | _ => paragraph newline (layer_lines d s) d s text
  end.
(* the layers with the shape each one is given *)
Fixpoint with_inputs (ds : list LDesc) (s : list nat) : list (LDesc * list nat) :=
  match ds with [] => [] | d :: t => (d, s) :: with_inputs t (expected_shape d s) end.
Fixpoint together (l : list string) : string := match l with [] => "" | a :: t => a ++ together t end.
Definition title (t : string) : string :=
  "============================================================" ++ newline ++ t ++ newline ++ "============================================================" ++ newline.
(* a summary with this heading, these paragraphs and this optimizer *)
Definition summarises (text : string) (heading : list (string * string)) (paragraphs : list string) (optimizer : list (string * string)) : Prop :=
  exists h o, text = title "| SNN Model Summary                                        |" ++ h ++ title "| Layers                                                   |" ++ together paragraphs ++
      title "|  Optimizer                                               |" ++ " StochasticGradientDescent" ++ newline ++ o ++ "============================================================" ++ newline /\
    lines h heading /\ lines o optimizer.
Definition says (text label value : string) : Prop :=
  exists before a after, blank a /\ text = before ++ label ++ a ++ value ++ newline ++ after.
End S.
