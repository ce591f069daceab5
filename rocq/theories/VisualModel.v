(* Model of src/neural_network/NeuralNetworkVisualization.cpp, of StraightforwardNeuralNetwork.cpp 255-284 (the three functions that draw
   pictures) and of the part of src/external_library/BitmapImage.hpp they use (79-88, 194-206, 1503-1510).
   Simplifications: the sizes of a picture are natural numbers (no 2^32 wrap); what is written to the disk is the picture itself (the BMP
   encoding is left out); the name of a file is the given name and the number of the layer. The conversions from float to int, which Num does
   not have, are parameters: [ceilSqrt n] is (int)ceil(sqrt((float)n)), [trunc x] the integer part of x (nothing when x is not finite) and
   [rounded x] is round(x). *)
From Coq Require Import SpecFloat.
From Verif Require Import Base Num NeuronModel LayerModel NetModel StatModel WaitModel DataModel FactoryModel TrainModel.
Local Open Scope nat_scope.
Local Open Scope outcome_scope.

(* BitmapImage.hpp 79-88, 1503-1510: three bytes per pixel, row after row; set_all_channels(0, 0, 0) *)
Definition pixel := (Z * Z * Z)%type.      (* red, green, blue *)
Definition black : pixel := (0, 0, 0)%Z.
Record bitmap := mkBitmap { bm_width : nat; bm_height : nat; bm_data : list pixel }.
Definition newBitmap (w h : nat) : bitmap := mkBitmap w h (repeat black (w * h)).
(* BitmapImage.hpp 194-206: no test of x and y; past the end of the data is undefined *)
Definition set_pixel (im : bitmap) (x y : nat) (p : pixel) : outcome bitmap :=
  let* d := lset (bm_data im) (y * bm_width im + x) p in Ok (mkBitmap (bm_width im) (bm_height im) d).

Record Conv {N : Num} := mkConv { ceilSqrt : nat -> nat; trunc : F -> option Z; rounded : F -> F }.

Section M.
Context {N : Num} (cv : Conv).

(* static_cast<unsigned char>(x): undefined when the integer part does not fit in the type *)
Definition uchar (x : F) : outcome Z :=
  match trunc cv x with Some z => if (0 <=? z)%Z && (z <=? 255)%Z then Ok z else UB | None => UB end.
Definition grey (c : Z) : pixel := (c, c, c).

(* cpp 16-21 and 80-85: the grid of filters *)
Definition gridX (filters : nat) : nat := ceilSqrt cv filters.
Definition gridY (filters : nat) : nat :=
  if filters <=? gridX filters * gridX filters - gridX filters then gridX filters - 1 else gridX filters.
Definition canvas (filters X Y : nat) : bitmap := newBitmap ((X + 1) * gridX filters - 1) ((Y + 1) * gridY filters - 1).

(* cpp 74-108, for a layer whose outputs have the shape [C; X; Y] *)
Definition drawOutputs (C X Y : nat) (outputs : list F) : outcome bitmap :=
  let* (_, im) :=
    ofold (fun s j => ofold (fun s i => ofold (fun s y => ofold (fun s x =>
      if y * gridX C + x <? C then
        let* v := lget outputs (fst s) in
        let* c := uchar (fmul v (fofZ 255)) in
        let* im := set_pixel (snd s) (x * (X + 1) + i) (y * (Y + 1) + j) (grey c) in
        Ok (S (fst s), im)
      else Ok s) (seq 0 (gridX C)) s) (seq 0 (gridY C)) s) (seq 0 X) s) (seq 0 Y) (0, canvas C X Y) in
  Ok im.

(* cpp 48-72; roughenX(n, oX, oY) and roughenY(n, oX, oY) of Tools.hpp 181-194 *)
Definition getWeights (f : Filter) (nin : nat) (ns : list Neuron) (oX oY inX filterNumber : nat) : outcome (list F) :=
  ofold (fun w n =>
    let* neuron := lget ns (n * (filterNumber + 1)) in
    if oX * oY =? 0 then UB else
    let px := (n mod (oX * oY)) mod oX in let py := (n mod (oX * oY)) / oX in
    ofold (fun w y => ofold (fun w x =>
      let i := (py + y) * inX + (px + x) in
      let* a := lget w i in let* b := lget (n_w neuron) (y * f_ksize f + x) in lset w i (fadd a b))
      (seq 0 (f_ksize f)) w) (seq 0 (f_ksize f)) w)
    (seq 0 (oX * oY)) (repeat fzero nin).
(* cpp 9-46: the colour of a weight *)
Definition weightColour (w : F) : outcome Z := uchar (rounded cv (fmul (fadd (ftanh (fdiv w (fofZ 2))) fone) (flit 1275 10))).
(* cpp 9-46 for an input of shape [_; inX; inY] and outputs of shape [C; oX; oY] *)
Definition drawWeights (f : Filter) (nin : nat) (ns : list Neuron) (C oX oY inX inY : nat) : outcome bitmap :=
  ofold (fun im x => ofold (fun im y =>
    if y * gridX C + x <? C then
      let* w := getWeights f nin ns oX oY inX (gridX C * y + x) in
      ofold (fun im i => ofold (fun im j =>
        let* v := lget w (j * inX + i) in let* c := weightColour v in
        set_pixel im (x * (inX + 1) + i) (y * (inY + 1) + j) (grey c)) (seq 0 inY) im) (seq 0 inX) im
    else Ok im) (seq 0 (gridY C)) im) (seq 0 (gridX C)) (canvas C inX inY).

(* cpp 110-139: nothing is drawn for an input that has not three dimensions *)
Definition drawInput (inputs : list F) (shape : list nat) : outcome (option bitmap) :=
  match shape with
  | [C; X; Y] =>
    let* (_, im) :=
      ofold (fun s y => ofold (fun s x =>
        if C =? 1 then
          let* v := lget inputs (fst s) in let* c := uchar (fmul v (fofZ 255)) in
          let* im := set_pixel (snd s) x y (grey c) in Ok (S (fst s), im)
        else
          let* r := lget inputs (fst s) in let* r := uchar (fmul r (fofZ 255)) in
          let* g := lget inputs (fst s + 1) in let* g := uchar (fmul g (fofZ 255)) in
          let* b := lget inputs (fst s + 2) in let* b := uchar (fmul b (fofZ 255)) in
          let* im := set_pixel (snd s) x y (r, g, b) in Ok (fst s + 3, im))
        (seq 0 X) s) (seq 0 Y) (0, newBitmap X Y) in
    Ok (Some im)
  | _ => Ok None
  end.

(* one picture per filter layer with three dimensions; cpp 11-15 and 76-79: nothing otherwise *)
Definition pictureOfOutputs (l : Layer) (outputs : list F) : outcome (option bitmap) :=
  match l_body l with
  | BFilter _ f _ => match f_shapeOut f with [C; X; Y] => let* im := drawOutputs C X Y outputs in Ok (Some im) | _ => Ok None end
  | _ => Ok None
  end.
Definition pictureOfWeights (l : Layer) : outcome (option bitmap) :=
  match l_body l with
  | BFilter _ f ns =>
    match f_shapeIn f, f_shapeOut f with
    | [_; X; Y], [C; oX; oY] => let* im := drawWeights f (l_in l) ns C oX oY X Y in Ok (Some im)
    | _, _ => Ok None
    end
  | _ => Ok None
  end.
(* StraightforwardNeuralNetwork.cpp 255-264; picture number l goes to the file with "_layer_l" in its name *)
Definition saveFeatureMapsAsBitmap (s : Snn) : outcome (list (option bitmap)) :=
  if negb (sn_idle s) then Throw "Filter layers cannot be saved during training, stop training before saving"
  else omap pictureOfWeights (nn_layers (sn_net s)).
(* StraightforwardNeuralNetwork.cpp 266-269: getShapeOfInput of the first layer *)
Definition saveData2DAsBitmap (s : Snn) (d : Data) (index : nat) : outcome (option bitmap) :=
  let* x := getTestingData d index in
  let* l := lget (nn_layers (sn_net s)) 0 in
  drawInput x (getShapeOfInput l).
(* StraightforwardNeuralNetwork.cpp 271-284; outputs[l] for every layer *)
Definition saveFilterLayersAsBitmap (s : Snn) (d : Data) (index : nat) : outcome (list (option bitmap) * Snn) :=
  if negb (sn_idle s) then Throw "Filter layers cannot be saved during training, stop training before saving" else
  let* x := getTestingData d index in
  let* (outs, net) := getLayerOutputs (sn_net s) x in
  let* pics := omap (fun l => let* layer := lget (nn_layers net) l in let* o := lget outs l in pictureOfOutputs layer o) (seq 0 (List.length (nn_layers net))) in
  Ok (pics, with_net s net).
End M.

(* the conversions on binary32 *)
Definition up32 (x : f32) : Z :=   (* ceil *)
  match x with
  | S754_finite s m e => let z := if s then Zneg m else Zpos m in
                         if (0 <=? e)%Z then (z * 2 ^ e)%Z else (- ((- z) / 2 ^ (- e)))%Z
  | _ => 0%Z
  end.
Definition trunc32 (x : f32) : option Z :=
  match x with
  | S754_zero _ => Some 0%Z
  | S754_finite s m e => let z := if (0 <=? e)%Z then (Zpos m * 2 ^ e)%Z else (Zpos m / 2 ^ (- e))%Z in Some (if s then (- z)%Z else z)
  | _ => None
  end.
(* round: halves away from zero; the result is an integer below 2^24 in absolute value or x itself *)
Definition round32 (x : f32) : f32 :=
  match x with
  | S754_finite s m e => if (0 <=? e)%Z then x else
                         let z := ((2 * Zpos m + 2 ^ (- e)) / (2 * 2 ^ (- e)))%Z in f32_of_Z (if s then (- z)%Z else z)
  | _ => x
  end.
Definition conv32 (e t : f32 -> f32) : @Conv (Num32 e t) :=
  @mkConv (Num32 e t) (fun n => Z.to_nat (up32 (@fsqrt (Num32 e t) (@fofnat (Num32 e t) n)))) trunc32 round32.
