# Formal model of StraightforwardNeuralNetwork in Rocq/Coq 8.16.1

This file is generated by `tools/mkdesign.py` from `tools/design_head.md`, `properties.jsonl`, `MANIFEST.json` and
`tools/assumptions.json` (itself written by `tools/assumptions.py` from `Print Assumptions`).

## 1. Approach

* `rocq/theories/*Model.v`: Gallina functions, one per C++ function, each with a comment citing file and lines.
* `rocq/theories/*Spec.v`: small independent vocabularies for the statements, written without the loops of the model.
* `rocq/theories/*Proofs.v` (and `Safe*`, `Train*`, `Eq*`, `Alike*`, `EvalSized`, `Float32`, `NumOrder`, ...): lemmas.
* `rocq/theories/*Props.v`: the property theorems, `Print Assumptions` beneath, and an `Example` (or a witness theorem) showing a
  concrete non-trivial case that meets the hypotheses.

Every C++ call has an outcome: `outcome A := Ok a | Throw msg | UB`. An access outside a vector, `back()` on an empty vector, a division
of integers by zero, a signed overflow (where user-given sizes are computed with) are `UB`.

Arithmetic on `float` is a record `Num` of operations **without laws**. Three kinds of statements:
1. for every `Num`: routing, indexing, control flow, histories, safety (so also for IEEE binary32);
2. for every `Num` with the order laws `order_laws N ok` (comparison behaves on the values that satisfy `ok`); proved for binary32 with
   `ok` = "not NaN" and for the reals;
3. over the reals (`RNum`) for analytic statements, and over binary32 (`Num32`, built on `Coq.Floats.SpecFloat`, bridged to rounding of
   reals through Flocq) for statements about rounding. `exp` and `tanh` are parameters of `Num32`.

Randomness is an argument (the order drawn by a shuffle, the mask bits of a dropout, the initial weights). Time is an argument (the
milliseconds read at each check). Threads are interleaved by an arbitrary schedule. Loops that may not terminate take a fuel; statements say
that more fuel gives the same result, and that some fuel is enough.

A property the code violates is recorded by a theorem `..._refuted` (kernel-checked), together with the strongest positive statement found,
suffixed `_partial`.

## 2. Trusted base

* The kernel of Coq 8.16.1 (with its virtual machine: concrete witnesses are computed with `vm_compute`).
* The axioms of the standard library listed in section 7: those of the real numbers, functional extensionality and excluded middle. Nothing
  else: no axiom, parameter, admitted proof, functor or module type is declared in `/verif/rocq`. Flocq and Coquelicot are used as libraries;
  what they rest on is the same standard-library axioms. (The opaque module fields of `Coq.Reals` and of `Coq.ssr.ssrunder`, which a scan of
  loaded libraries may list, are defined in the standard library and are not assumptions of any theorem.)
* The faithfulness of the model to the C++ text: read by hand, each definition cites the lines it models. Tested by seeded wrong programs
  (section 5).

## 3. What is modelled

| C++ | model |
|---|---|
| `include/snn/tools/Tools.hpp`, `src/tools/Tools.cpp` | ToolsModel |
| `src/data/*`, `include/snn/data/*` (Data, Set, the six composites) | DataModel |
| `Wait.hpp/.cpp` (criteria, literals, `isOver`) | WaitModel |
| `StatisticAnalysis.*`, `computeCluster` | StatModel |
| activation functions | ActModel |
| CircularData, Neuron, SimpleNeuron, RecurrentNeuron, GatedRecurrentUnit, StochasticGradientDescent | NeuronModel |
| Layer, SimpleLayer, FullyConnected, Recurrence, GruLayer, FilterLayer, Convolution1D/2D, LocallyConnected1D/2D, MaxPooling1D/2D, Dropout, L1, L2, ErrorMultiplier, Softmax | LayerModel |
| LayerFactory, LayerOptimizerFactory, the constructors, every `isValid` | FactoryModel |
| NeuralNetwork (outputs, back-propagation, `trainOnce`, getters) | NetModel |
| StraightforwardNeuralNetwork (`computeOutput`, `computeCluster`, `train`, `trainSync`, `evaluate`, `saveAs`, `saveSync`) | TrainModel |
| `startTrainingAsync`, `stopTrainingAsync`, `waitFor`, `isTraining` and the flags, two threads | AsyncModel, AsyncWaitModel (waitFor) |
| every `serialize`, `loadFrom` | SaveModel |
| copy constructors and `clone()`, with pointers | CopyModel |
| every `operator==` | EqModel |
| NeuralNetworkVisualization, the part of BitmapImage it uses | VisualModel |

## 4. Simplifications, and what is not modelled

* Sizes and indices derived from vector lengths are natural numbers (no 2^31 limit); counts of samples and epochs are unbounded. Sizes given by
  the user to the factory are 32-bit integers with overflow as `UB`; a negative kernel size is not modelled faithfully for 2-D locally connected and pooling layers, so the theorems about
  built networks assume `sane_descriptions`/`sane_kernel`.
* `#pragma omp simd` sums are taken in index order. `powf(y, 2)` is `y * y`. `abs` in StatisticAnalysis is the float overload. `assert`s are
  ignored (NDEBUG). Promotions of `float` to `double` inside a formula are not modelled.
* The random generators: which values they give is an argument; their distribution is not modelled (C46 says so for `randomBetween`).
* `evaluate(data)` called directly by the user passes a null `wait` that is only dereferenced in a build with verbosity: the default build is
  modelled by `evaluateData`, the verbose one by `evaluateVerbose` (C61).
* Log messages (`tools::log`, progress, accuracy) are left out: they change nothing but the logging clock.
* After an exception the state is lost in the `outcome` type (the caller sees only that it threw); what remains of the flags after an
  exception is in AsyncModel (C57).
* AsyncModel: sequential consistency (the C++ members are plain `bool`s: formally a data race), one caller thread, data accepted by
  `validData`; the arithmetic is left out.
* SaveModel: the headers of the Boost archive are left out; that a finite `float` survives its decimal text, and that `is >> float` fails on
  `nan`/`inf`, are assumptions about the standard library, built into the model of the archive; the disk does not fail.
* CopyModel: destruction frees the cells; the table of activation functions is shared and immutable and not represented.
* VisualModel: the BMP encoding is left out; picture sizes are natural numbers; the conversions from float to int are parameters, with their
  binary32 instance in VisualFloat.
* Not modelled at all: `ExtendedException` (its text), `tests/`, `examples/`, dataset readers.

## 5. Seeded wrong programs

`tools/mutants.json` lists realistic edits of the model files; `tools/mutate.py` applies each in a scratch copy, rebuilds the theorems of the
claims it breaks, and appends the result to `seeded/LOG.jsonl` (`theorems_failed` lists everything that no longer builds, also downstream of the
first failing proof). Survivors led to new or tightened theorems (`theorems_tightened`): C58, C59 and others.
