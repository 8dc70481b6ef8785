(** The functions that can be named in a config: what the decorators [@registry.layers("...")] and so on register when thinc is
    imported, and how a name is resolved. No proofs here.
    thinc/config.py 8-16 for the registries ([create] is in GlueModel); the decorators are cited with each table. The registries are those of catalogue (not
    part of the repository): a global dictionary in which a registration replaces an earlier one of the same name, looked up
    after the entry points of installed packages. Functions are represented by their names. *)
From Coq Require Import String Bool.
From Verif Require Export DictModel NodeModel.
Local Open Scope string_scope.
Local Open Scope list_scope.

(** layers/add.py 12; layers/bidirectional.py 12; layers/cauchysimilarity.py 12; layers/chain.py 13;
    layers/clipped_linear.py 13, 92, 117, 142; layers/clone.py 12; layers/concatenate.py 28; layers/dish.py 13;
    layers/dropout.py 10; layers/embed.py 15; layers/expand_window.py 10; layers/gelu.py 13; layers/hard_swish.py 13;
    layers/hard_swish_mobilenet.py 13; layers/hashembed.py 15; layers/layernorm.py 12; layers/linear.py 13;
    layers/list2array.py 15; layers/list2padded.py 11; layers/list2ragged.py 11; layers/logistic.py 11; layers/lstm.py 13,
    43; layers/maxout.py 16; layers/mish.py 16; layers/multisoftmax.py 12; layers/mxnetwrapper.py 10; layers/noop.py 9;
    layers/padded2list.py 11; layers/parametricattention.py 12; layers/parametricattention_v2.py 15; layers/premap_ids.pyx
    36; layers/pytorchwrapper.py 18, 39, 79, 141; layers/ragged2list.py 11; layers/reduce_first.py 12; layers/reduce_last.py
    12; layers/reduce_max.py 12; layers/reduce_mean.py 12; layers/reduce_sum.py 12; layers/relu.py 16; layers/remap_ids.py
    15, 47; layers/residual.py 14; layers/resizable.py 11; layers/siamese.py 14; layers/sigmoid.py 13;
    layers/sigmoid_activation.py 8; layers/softmax.py 13, 35; layers/softmax_activation.py 11; layers/sparselinear.pyx 19,
    34; layers/strings2arrays.py 14; layers/swish.py 13; layers/tuplify.py 10; layers/uniqued.py 13; layers/with_array.py
    15; layers/with_array2d.py 15; layers/with_cpu.py 11; layers/with_flatten.py 14; layers/with_flatten_v2.py 14;
    layers/with_getitem.py 10; layers/with_list.py 10; layers/with_padded.py 12; layers/with_ragged.py 15;
    layers/with_reshape.py 11 *)
Definition registered_layers : list (string * string) := [
    ("add.v1", "add"); ("bidirectional.v1", "bidirectional"); ("CauchySimilarity.v1", "CauchySimilarity"); ("chain.v1",
    "chain_no_types"); ("ClippedLinear.v1", "ClippedLinear"); ("HardSigmoid.v1", "HardSigmoid"); ("HardTanh.v1",
    "HardTanh"); ("ReluK.v1", "ReluK"); ("clone.v1", "clone"); ("concatenate.v1", "concatenate"); ("Dish.v1", "Dish");
    ("Dropout.v1", "Dropout"); ("Embed.v1", "Embed"); ("expand_window.v1", "expand_window"); ("Gelu.v1", "Gelu");
    ("HardSwish.v1", "HardSwish"); ("HardSwishMobilenet.v1", "HardSwishMobilenet"); ("HashEmbed.v1", "HashEmbed");
    ("LayerNorm.v1", "LayerNorm"); ("Linear.v1", "Linear"); ("list2array.v1", "list2array"); ("list2padded.v1",
    "list2padded"); ("list2ragged.v1", "list2ragged"); ("Logistic.v1", "Logistic"); ("LSTM.v1", "LSTM"); ("PyTorchLSTM.v1",
    "PyTorchLSTM"); ("Maxout.v1", "Maxout"); ("Mish.v1", "Mish"); ("MultiSoftmax.v1", "MultiSoftmax"); ("MXNetWrapper.v1",
    "MXNetWrapper"); ("noop.v1", "noop"); ("padded2list.v1", "padded2list"); ("ParametricAttention.v1",
    "ParametricAttention"); ("ParametricAttention.v2", "ParametricAttention_v2"); ("premap_ids.v1", "premap_ids");
    ("PyTorchRNNWrapper.v1", "PyTorchRNNWrapper"); ("PyTorchWrapper.v1", "PyTorchWrapper"); ("PyTorchWrapper.v2",
    "PyTorchWrapper_v2"); ("PyTorchWrapper.v3", "PyTorchWrapper_v3"); ("ragged2list.v1", "ragged2list"); ("reduce_first.v1",
    "reduce_first"); ("reduce_last.v1", "reduce_last"); ("reduce_max.v1", "reduce_max"); ("reduce_mean.v1", "reduce_mean");
    ("reduce_sum.v1", "reduce_sum"); ("Relu.v1", "Relu"); ("remap_ids.v1", "remap_ids"); ("remap_ids.v2", "remap_ids_v2");
    ("residual.v1", "residual"); ("resizable.v1", "resizable"); ("siamese.v1", "siamese"); ("Sigmoid.v1", "Sigmoid");
    ("sigmoid_activation.v1", "sigmoid_activation"); ("Softmax.v1", "Softmax"); ("Softmax.v2", "Softmax_v2");
    ("softmax_activation.v1", "softmax_activation"); ("SparseLinear.v1", "SparseLinear"); ("SparseLinear.v2",
    "SparseLinear_v2"); ("strings2arrays.v1", "strings2arrays"); ("Swish.v1", "Swish"); ("tuplify.v1", "tuplify");
    ("uniqued.v1", "uniqued"); ("with_array.v1", "with_array"); ("with_array2d.v1", "with_array2d"); ("with_cpu.v1",
    "with_cpu"); ("with_flatten.v1", "with_flatten"); ("with_flatten.v2", "with_flatten_v2"); ("with_getitem.v1",
    "with_getitem"); ("with_list.v1", "with_list"); ("with_padded.v1", "with_padded"); ("with_ragged.v1", "with_ragged");
    ("with_reshape.v1", "with_reshape")].

(** loss.py 171, 183, 199, 270, 277, 289, 332, 404 *)
Definition registered_losses : list (string * string) := [
    ("CategoricalCrossentropy.v1", "configure_CategoricalCrossentropy_v1"); ("CategoricalCrossentropy.v2",
    "configure_CategoricalCrossentropy_v2"); ("CategoricalCrossentropy.v3", "configure_CategoricalCrossentropy_v3");
    ("SequenceCategoricalCrossentropy.v1", "configure_SequenceCategoricalCrossentropy_v1");
    ("SequenceCategoricalCrossentropy.v2", "configure_SequenceCategoricalCrossentropy_v2");
    ("SequenceCategoricalCrossentropy.v3", "configure_SequenceCategoricalCrossentropy_v3"); ("L2Distance.v1",
    "configure_L2Distance"); ("CosineDistance.v1", "configure_CosineDistance")].

(** initializers.py 23, 33, 43, 53, 63, 73, 82, 94, 108 *)
Definition registered_initializers : list (string * string) := [
    ("lecun_normal_init.v1", "configure_lecun_normal_init"); ("he_normal_init.v1", "configure_he_normal_init");
    ("glorot_normal_init.v1", "configure_glorot_normal_init"); ("he_uniform_init.v1", "configure_he_uniform_init");
    ("lecun_uniform_init.v1", "configure_lecun_uniform_init"); ("glorot_uniform_init.v1", "configure_glorot_uniform_init");
    ("zero_init.v1", "configure_zero_init"); ("uniform_init.v1", "configure_uniform_init"); ("normal_init.v1",
    "configure_normal_init")].

(** schedules.py 69, 90, 101, 127, 160, 263, 304, 334 *)
Definition registered_schedules : list (string * string) := [
    ("constant_then.v1", "constant_then"); ("constant.v1", "constant"); ("decaying.v1", "decaying"); ("compounding.v1",
    "compounding"); ("plateau.v1", "plateau"); ("slanted_triangular.v1", "slanted_triangular"); ("warmup_linear.v1",
    "warmup_linear"); ("cyclic_triangular.v1", "cyclic_triangular")].

(** optimizers.py 33, 58, 83 *)
Definition registered_optimizers : list (string * string) := [
    ("RAdam.v1", "RAdam"); ("Adam.v1", "Adam"); ("SGD.v1", "SGD")].

(** backends/apple_ops.pyx 15; backends/cupy_ops.py 20; backends/mps_ops.py 24; backends/numpy_ops.pyx 37 *)
Definition registered_ops : list (string * string) := [
    ("AppleOps", "AppleOps"); ("CupyOps", "CupyOps"); ("MPSOps", "MPSOps"); ("NumpyOps", "NumpyOps")].

(** config.py 10-16: the registries with functions of thinc; [datasets] has none *)
Definition registrations : list (string * list (string * string)) :=
  [("layers", registered_layers); ("losses", registered_losses); ("initializers", registered_initializers);
   ("schedules", registered_schedules); ("optimizers", registered_optimizers); ("ops", registered_ops)].

Section Catalogue.
  Context {F : Type}.
  (** A registration at import; the decorator of catalogue *)
  Definition register (d : dict string F) (r : string * F) : dict string F := dset (fst r) (snd r) d.
  Definition import_all (rs : list (string * F)) : dict string F := fold_left register rs [].
  (** [registry.get]: the entry points of installed packages come first; an unknown name raises an error (a ValueError) *)
  Definition resolve (entry : string -> option F) (d : dict string F) (name : string) : result F :=
    match entry name with
    | Some f => Ok f
    | None => match dget name d with Some f => Ok f | None => Err ValueError end
    end.
End Catalogue.
