# Formal model of explosion/thinc in Rocq — design

Source of truth: `/repo` (read only, never run here). Development: `/verif/rocq/theories`
(logical name `Verif`). Every model definition carries a comment with the file and line range
it models. `properties.jsonl` states the properties, `MANIFEST.json` names the theorems that prove each of them,
`seeded/LOG.jsonl` records the wrong programs tried against the theorems.

## Conventions

* One area = four kinds of files: `XModel.v` (definitions only, cited), `XSpec.v` (the small independent
  vocabulary in which the properties are stated; only where stdlib vocabulary is not enough),
  `XProofs.v` (lemmas), `XProps.v` (property theorems only: each closed by `exact lemma`, followed by
  `Print Assumptions`, with an `Example` showing that a concrete non-trivial case meets the hypotheses).
* Python exceptions are values (`Err e`, or `None` with the error named in the comment). Calls that would read or write
  outside an array in Cython/C++ are the value `Err MemFault`.
* Object identity is an address in a finite heap. Arrays are lists (of rows). In-place mutation becomes a returned value;
  where aliasing itself is the subject (C05, C51) arrays live in an explicit store.
* Loops that need not terminate structurally take fuel computed from the state; a theorem says that the fuel suffices.
* Numbers. Data movement is proved for an arbitrary element type. Arithmetic is generic over the operations class `Num`
  (`NumModel.v`) and is proved either over an arbitrary commutative ring (a `ring_theory` hypothesis in the statement) or
  over the reals `R` (`num_R`). Examples that compute use the rationals (`num_Q`). Floating-point rounding,
  NaN and infinities are NOT modelled (see trusted base). Integer hashing is modelled with explicit `mod 2^32`/`2^64`.
* External code (optimizers passed in, wrapped layers, PyTorch modules, dropout's random numbers, serialization callbacks) is a
  variable of the definition or theorem, so the theorems hold for every such code.
* A property that fails of the code is recorded as a finding with a theorem `..._refuted` (a concrete witness, or a
  statement for all inputs of the failing kind), next to the strongest version that does hold. `_partial` marks a theorem that
  covers part of the stated property because the rest is false or open; the note in `MANIFEST.json` says which.

## Plan per property

| id | model | proof |
|----|-------|-------|
| C01,C02 | heap of nodes with `layers` lists; bfs queue loop and dfs iterator-stack loop with fuel computed from the heap | loop invariants; fuel sufficiency; set equality with reachability; order invariants |
| C03 | dims table + history of calls | induction over the call list |
| C04,C05 | ParamServer maps + Model wrappers; array store for aliasing of increments | refinement to a simple spec of the history |
| C06 | finish_update as a fold over walk x param_names with an oracle optimizer (stateful) | log of calls characterised; frame |
| C07 | use_params as enter/exit over the layer tree (with sharing, by address) | stack discipline (LIFO) invariant; exception path refuted |
| C08-C10 | refs and layers surgery on the heap | reachability reasoning from C01 |
| C11 | _copy recursion with the `seen` map over a growing heap | simulation/isomorphism invariant |
| C12,C13 | to_dict/from_dict/can_from_dict over walk order | round trip via position map |
| C14 | small-step interleaving semantics of lock/read/increment/unlock | invariant over reachable states |
| C15 | contexts as a stack machine with normal/exceptional exit | structural induction on programs |
| C16 | fold over walk | pointwise characterisation |
| C17-C22 | optimizer state maps over R, vectors as lists of R | induction over call histories |
| C23 | generator = list/stream with cursor | induction over query list |
| C24,C25 | schedule functions over R / plateau state machine | real analysis, induction on history |
| C26,C27 | buffer-queue loops | induction; equality with a chunking spec |
| C28-C33 | sequence conversions on lists of rows | list induction, sorting lemmas |
| C34-C38 | kernels as loops over flat arrays with offsets | loop = spec; adjointness over a commutative ring |
| C39 | murmur words mod 2^32, ngrams | range/locality lemmas |
| C40 | lookup + scatter | adjointness |
| C41 | layer = forward + callback; adjoint relation | composition lemmas, arbitrary arity |
| C42 | dense layers over R | adjointness / derivatives |
| C43 | dropout with mask oracle | case analysis |
| C44 | activations over R | derivatives (stdlib `derivable_pt_lim`) |
| C45-C47 | softmax, categorical, losses over R | sums over lists, derivatives |
| C48 | index arithmetic | bijection of offsets |
| C49-C54 | layer adapters | list reasoning / refutations |
| C55 | scaler state machine | induction over histories |
| C56 | LSTM backward loops (gate gradient dataflow) | back-propagation through time by induction on the sequence, simulation of the kernel loop, induction on layers; refutation witnesses |
| C57 | one training step as a function of parameters and optimizer state | C41–C47 and C19/C20 along the line the step moves on |
| C58 | `init` functions as computations on a heap of nodes (sharing = same address) | closure of an abstract predicate under all init functions; a typing relation of widths, sound and complete for running |
| C59 | threads as lists of accesses to the written array, scheduler as a list of thread numbers | accesses of different iterations commute, so every schedule equals the sequential one; then per-kernel loops |
| C60 | kernels on scalars lifted by the elementwise launches of C59; CUDA's `erf` a parameter | the error function is built as an integral (Gaussian integral proved), Mills' bound for the tails |
| C61 | byte memory, MurmurHash3 for any length, the launch of C59 | xor of shifted bytes = the word (no carries); equality with `murmur128` |
| C62 | the layers of C41 over Ragged values, softmax_sequences of C45, reductions of C34 | windows of a flat array; layers that are linear near their input; product and quotient rules |
| C63 | nested values of C50 with arrays and tensors as leaves; the framework (module, autograd, gradients) as parameters with a state | conversions replace leaves; induction on depth |
| C64 | draws from a generator with a state, scaled and shifted; expectation as a linear functional | bilinearity of the second moment |
| C65 | tables as association lists, references for the shared default, preshed's maps as a parameter with the laws of dicts | induction on keys and tables |
| C66 | Keras models as lists of layers of named weights, tapes and optimizers as parameters, MXNet's global modes as a record | induction on layers, weights and steps; sums of gradients over the reals |
| C67 | buffers, views with offset and strides, pointer loops with faults outside of buffers | loops change exactly a range (induction); address arithmetic |
| C68 | the C loop over pairs with its variables j and d, results stored at a pointer (ViewModel) | invariant of the loop; addition theorems over the reals |
| C69 | a machine (what CuPy and PyTorch report), a thread with current devices and pools, copies of names made on import, nodes with arrays tagged by place | case analysis; induction over the nodes of walk and their parameters |
| C70 | the constructor, the keyword mapping of Adam/RAdam/SGD, and a call as a sequence of schedule queries in source order on a mutable optimizer | refinement: each statement of a call preserves that every schedule follows its function from the current step; induction over histories |
| C71 | the init function of every remaining layer and wrapper on a heap of nodes, by nested recursion on the model, with an initializer that counts its calls, conversions and forward passes as oracles | invariants of states (later states, frame, shapes by dims) proved for each init function and by induction on the model |
| C72 | function objects as data, plain layer functions as programs over a heap of nodes that may call, initialize and run callbacks of other nodes, an interpreter by nesting depth | simulation between worlds that differ in wrappers, by induction on programs, codes and depth; stack discipline of ranges as an invariant |
| C73 | objects and annotations as trees; validators of array types; pydantic's acceptance for these annotations, an oracle for others | structural induction on annotations, against an inductive typing relation |
| C74 | arrays as buffer, device, dtype with byte order, shape and items; NumPy's inference of unknown dimensions; nested sequences; bytes through an arbitrary codec | induction over shapes and nested sequences; uniqueness of completions by division |
| C75 | buffers as flat lists with bounds; reference sgemm as loops over loads and stores; shape checks | loop invariants over the entries written so far |
| C76 | types, call contexts and reported failures as data; is_subtype and type equality as parameters | lists of neighbours by index; induction over the chain |
| C77 | models as records on a growing heap with the global id counter; a model means an expression over layers | symbolic execution; uniqueness and monotonicity of meanings by induction over expressions |
| C78 | file system as a dictionary; msgpack as a pair of functions, and its effect on values of attributes as a recursive function | induction over nested values; C12 and C13 for the rest |
| C79 | modules, scalers and shims as objects in a state with PyTorch's devices; torch.jit as oracles | case analysis of a state monad; composition of preservation lemmas |
| C80 | Keras, h5py and MXNet as oracles; classes and registry as state; files as a dictionary, with the write buffer of Python's file objects | case analysis; an inductive relation for calls in order |
| C81 | the kernels of C59 preceded by the list of the ints of each iteration | refinement of the loop with an invariant for the cursor; bounds by monotonicity of products |
| C82 | the forward pass and the callback with the kernels as arguments, composed with the packing of C32, the dropout mask of C43 and the kernels of C56 | composition of C30, C32 and C56 through the columns of a sorted batch |
| C83 | the scalar interface of the other models instantiated with the standard library's specification of IEEE 754 (SpecFloat); comparisons with NaN written out | canonical mantissas: exact products and sums, classes of rounded results, the order on floats |
| C84 | the functions as they are, with the compiler as an oracle and the side (host or GPU) of arrays as a tag | induction over calls and over the walk; computation over the tables of kernels; monotonicity of ln |
| C85 | the two id counters, creation and copies of nodes and shims, and the keys passed to the optimizer | invariant over all sequences of operations; independence per key (C17) over tagged histories |
| C86 | the table of all decorators `@registry.…("name")`, the registration dictionary and the lookup of a name | checked computation over the table lifted to every import order by induction |

## Files per property

The models imported (directly or through proofs) by the file of the property theorems.

| properties | theorems in | models |
|---|---|---|
| C44 | ActProps | ActModel, CombModel, DenseModel |
| C31 | AdaptProps | AdaptModel, SeqModel |
| C51 | AliasProps | AliasModel, CombModel, MatModel, NumModel, SeqModel |
| C62 | AttnProps | AttnModel |
| C26, C27 | BatchProps | BatchModel |
| C52 | BidiProps | BidiModel, CombModel, MatModel, NumModel, SeqModel |
| C75 | BlasProps | BlasModel, DenseModel |
| C77 | BuildProps | ActModel, AdaptModel, BidiModel, BuildModel, CombModel, DenseModel, DictModel, GraphModel, InitModel, KernelModel, MatModel, NodeModel, NumModel, OptModel, ReduceModel, Seq2colModel, SeqModel, SoftModel, WInitModel |
| C46 | CatProps | LossModel |
| C41 | CombProps | CombModel |
| C14 | ConcProps | ConcModel |
| C11 | CopyProps | CopyModel, GraphModel, NodeModel |
| C15 | CtxProps | CtxModel |
| C60 | CudaActProps | OptModel |
| C61 | CudaHashProps | CudaHashModel |
| C81 | CudaIntProps | CudaIntModel, CudaModel |
| C59 | CudaProps | CudaModel, KernelModel, ReduceModel, Seq2colModel, SeqModel |
| C42 | DenseProps | CombModel, DenseModel |
| C69 | DeviceProps | DeviceModel |
| C78 | DiskProps | DictModel, DiskModel, EditModel, GraphModel, NodeModel, NumModel, SeqModel, SerialModel, ShapeModel |
| C43 | DropProps | CombModel, DropModel |
| C09, C10 | EditProps | EditModel, GraphModel, NodeModel |
| C40 | EmbedProps | AdaptModel, EmbedModel, HashModel, KernelModel, MatModel, NumModel, ReduceModel, Seq2colModel, SeqModel, SparseModel |
| C64 | FillProps | FillModel |
| C83 | FloatProps | CudaActModel, DenseModel, FloatModel, KernelModel, OptModel, ReduceModel, ScalerModel |
| C66 | ForeignProps | ForeignModel |
| C37 | GatherProps | AdaptModel, KernelModel, MatModel, NumModel, ReduceModel, Seq2colModel, SeqModel |
| C84 | GlueProps | ActModel, CombModel, CtxModel, DenseModel, DeviceModel, DictModel, GlueModel, GraphModel, KernelModel, LossModel, MatModel, NodeModel, NumModel, ReduceModel, Seq2colModel, SeqModel, SoftModel, SparseModel |
| C05 | GradProps | GradModel, NodeModel |
| C01, C02 | GraphProps | GraphModel |
| C39 | HashProps | HashModel, MatModel, NumModel, ReduceModel, SeqModel, SparseModel |
| C85 | IdProps | DictModel, GraphModel, IdModel, NodeModel, NumModel, OptModel |
| C58 | InitProps | CombModel, DictModel, InitModel, NodeModel |
| C72 | InstrProps | InstrModel |
| C80 | KerasProps | DictModel, GraphModel, KerasModel, NodeModel |
| C36 | KernelProps | AdaptModel, KernelModel, MatModel, NumModel, ReduceModel, Seq2colModel, SeqModel |
| C47 | LossProps | CombModel, DenseModel, LossModel, SoftModel |
| C56 | LstmBpttProps | LstmKernelModel |
| C56 | LstmKernelProps | LstmKernelModel, LstmModel |
| C82 | LstmLayerProps | LstmKernelModel |
| C48 | LstmProps | LstmModel |
| C74 | MakeProps | MakeModel |
| C65 | MapperProps | MapperModel |
| C76 | MypyProps | MypyModel |
| C50 | NestProps | NestModel |
| C01, C03, C04, C08, C16 | NodeProps | GraphModel, NodeModel |
| C70 | OptBuildProps | OptBuildModel |
| C17, C18, C19, C20, C21, C22 | OptProps | DictModel, NumModel, OptModel |
| C68 | PosProps | PosModel |
| C34 | ReduceProps | AdaptModel, MatModel, NumModel, ReduceModel, SeqModel |
| C86 | RegProps | DictModel, GraphModel, NodeModel, RegModel |
| C49 | ResizeProps | ResizeModel |
| C55 | ScalerProps | NumModel, ScalerModel |
| C23, C24, C25 | SchedProps | NumModel, SchedModel |
| C35 | Seq2colProps | AdaptModel, MatModel, NumModel, ReduceModel, Seq2colModel, SeqModel |
| C28, C29, C30, C32, C33 | SeqProps | SeqModel |
| C12, C13 | SerialProps | GraphModel, NodeModel, SerialModel |
| C53 | ShapeProps | NumModel, SeqModel, ShapeModel |
| C45 | SoftProps | ActModel, CombModel, DenseModel, SoftModel |
| C38 | SparseProps | AdaptModel, KernelModel, MatModel, NumModel, ReduceModel, Seq2colModel, SeqModel, SparseModel |
| C79 | TorchBuildProps | CtxModel, DeviceModel, DictModel, GraphModel, NodeModel, TorchBuildModel |
| C57 | TrainProps | DenseModel, LossModel, SoftModel, TrainModel |
| C54 | UniqProps | UniqModel |
| C06, C07 | UpdateProps | GraphModel, NodeModel, UpdateModel |
| C73 | ValidProps | ValidModel |
| C67 | ViewProps | ViewModel |
| C71 | WInitProps | DictModel, InitModel, NodeModel, WInitModel |
| C63 | WrapProps | NestModel, WrapModel |

## Modelled source lines

Collected from the comments of the model files.

| model | source |
|---|---|
| ActModel | backends/ops.py 55-57, 773-809, 950-1170, 1695-1702; backends/cpu_kernels.hh 257-268, 271-289; layers/swish.py 41-55; layers/hard_swish.py 41-55; layers/hard_swish_mobilenet.py 41-55; layers/dish.py 41-55; layers/gelu.py 41-55; layers/mish.py 47-61; layers/sigmoid.py 38-50; backends/numpy_ops.pyx 237; layers/sigmoid_activation.py 13-24; layers/logistic.py 19-25 |
| AdaptModel | layers/with_array.py 32-42, 70-84, 87-96, 99-110; layers/with_array2d.py 31-42, 72-86, 89-99, 102-125; layers/with_list.py 21-30, 51-69, 72-87; layers/with_ragged.py 20-37, 70-79, 82-111, 114-128; layers/with_padded.py 23-43, 66-71, 77-92, 95-104, 107-128, 131-143; layers/list2array.py 24-30; layers/list2ragged.py 20-25; layers/ragged2list.py 17-25; layers/list2padded.py 17-23; layers/padded2list.py 17-27 |
| AliasModel | layers/noop.py 15-21; layers/dropout.py 27-29; layers/relu.py 48-51; backends/ops.py 899-912; layers/add.py 32-48; layers/tuplify.py 32-47; layers/residual.py 28-50 |
| AttnModel | layers/parametricattention.py 18-30, 44-65; layers/parametricattention_v2.py 36-52, 80-100; layers/cauchysimilarity.py 26-44, 58-64; layers/reduce_first.py 18-30; layers/reduce_last.py 18-29; layers/reduce_max.py 17-26; layers/reduce_mean.py 17-27; layers/reduce_sum.py 17-26; types.py 1188-1194; util.py 633-642 |
| BatchModel | backends/ops.py 84-192; types.py 1093-1106 |
| BidiModel | layers/bidirectional.py 22-35, 46-47, 50-56, 59-67, 70-71 |
| BlasModel | backends/_accelerate.pyx 7-75; backends/apple_ops.pyx 15-39; backends/numpy_ops.pyx 81-126; backends/cblas.pyx 15-73 |
| BuildModel | model.py 85-129, 176-185, 187-196; layers/chain.py 18-45; layers/add.py 13-29; layers/concatenate.py 29-53; layers/noop.py 10-12; layers/tuplify.py 11-29; layers/residual.py 15-25; layers/layernorm.py 13-20; layers/dropout.py 11-16; layers/relu.py 17-41; layers/mish.py 17-44; layers/dish.py 14-38; layers/gelu.py 14-38; layers/swish.py 14-38; layers/hard_swish.py 14-38; layers/hard_swish_mobilenet.py 14-38; layers/maxout.py 17-42; layers/clipped_linear.py 14-49, 93-114, 118-139, 143-165; layers/linear.py 14-32; layers/sigmoid.py 14-35; layers/softmax.py 14-32, 36-60, 112-115; layers/array_getitem.py 30-35; layers/embed.py 16-45; layers/hashembed.py 16-56 |
| CombModel | types.py 1180-1187; layers/noop.py 15-21; layers/chain.py 48-64; layers/add.py 32-48; layers/concatenate.py 56-66, 69-93, 96-116, 119-140; layers/residual.py 28-50; layers/tuplify.py 32-47; layers/siamese.py 27-41; layers/map_list.py 14-28; layers/clone.py 13-24; layers/with_debug.py 28-36; layers/resizable.py 24-31 |
| ConcModel | model.py 113-115; shims/shim.py 26-28 |
| CopyModel | model.py 85-122, 478-525 |
| CtxModel | model.py 162-174, 749-831; backends/__init__.py 97-116, 127-135, 138-142, 145-148; util.py 205-212, 602-609 |
| CudaActModel | backends/_custom_kernels.cu 46-50, 52-56, 58-62, 64-68, 141-147, 149-153, 155-252, 254-264, 332-343, 350-366, 391-559; backends/cupy_ops.py 9-23, 46-68, 141-252, 254-264, 332-366 |
| CudaHashModel | backends/_murmur3.cu 44-47, 74-83, 87-188; backends/_custom_kernels.py 798-810; backends/cupy_ops.py 44-47, 59-68, 87-165, 171-188, 326-327 |
| CudaIntModel | backends/_murmur3.cu 170-189; backends/_custom_kernels.cu 32-41, 82-120, 127-139, 146-165, 169-251, 259-280, 289-321, 337-387, 391-559, 565-585, 592-615, 622-657 |
| CudaModel | backends/_custom_kernels.py 175-883; backends/cupy_ops.py 40-324; backends/_custom_kernels.cu 25-42, 45-121, 124-140, 143-166, 169-251, 254-281, 284-322, 325-388, 391-559, 562-586, 589-616, 619-658 |
| DenseModel | layers/linear.py 35-46; layers/relu.py 44-56; layers/clipped_linear.py 52-74; layers/maxout.py 45-66; layers/layernorm.py 23-87; backends/ops.py 52-74, 235-265, 899-948; backends/numpy_ops.pyx 81-157; backends/cpu_kernels.hh 44-56, 341-352 |
| DeviceModel | compat.py 6-32, 35-57, 60-96, 126; backends/ops.py 64-68; backends/numpy_ops.pyx 42-50, 55-69; backends/cupy_ops.py 26-30, 86-102; util.py 35-50, 62-77, 80-90, 111-180, 189-202, 205-212, 215-219, 222-239, 321-333; backends/__init__.py 38-50, 53-71, 74-89, 119-124, 151-156; shims/pytorch.py 197-204; shims/shim.py 55-56; model.py 527-532, 534-536, 538-548 |
| DictModel | shared vocabulary (see its comments) |
| DiskModel | model.py 550-569, 628-647, 650-652, 679-700, 707-708, 834-849; shims/shim.py 58-68 |
| DropModel | backends/ops.py 485-497; layers/dropout.py 19-35, 38-47, 50-60, 63-74, 77-87 |
| EditModel | model.py 422-437, 445-464, 879-885 |
| EmbedModel | layers/embed.py 48-71; layers/hashembed.py 59-91 |
| FillModel | initializers.py 18-20, 28-30, 38-40, 48-50, 58-60, 68-70, 78-79, 87-91, 101-105 |
| FloatModel | backends/cpu_kernels.hh 341-352; backends/numpy_ops.pyx 142-157; backends/ops.py 888-890, 1207-1213 |
| ForeignModel | shims/tensorflow.py 86-97, 104-129, 133-174, 176-183, 185-204, 206-214, 216-223, 266-277; layers/tensorflowwrapper.py 114-137; shims/mxnet.py 33-43, 45-60, 62-86, 88-103 |
| GlueModel | backends/_cupy_allocators.py 8-22, 25-46; backends/_custom_kernels.py 14-63, 73-96, 98-100, 102-112, 114-117, 119-178; config.py 19-27; layers/sparselinear.pyx 50-79, 81-124; layers/lstm.py 43-62; model.py 466-476; util.py 390-515; backends/ops.py 1215-1219; loss.py 138-142, 236-241, 311-312, 342-343 |
| GradModel | model.py 252-270; backends/_param_server.py 41-79 |
| GraphModel | model.py 109, 124-129, 374-387, 389-398, 400-420 |
| HashModel | backends/numpy_ops.pyx 326-336, 537-546, 1078-1111; backends/ops.py 326-336, 537-546, 704-718, 1078-1111, 1350-1368 |
| IdModel | model.py 114-117, 336-348, 478-533; shims/shim.py 20-30, 52-53; shims/pytorch.py 164-180; shims/tensorflow.py 133-155, 216-223; shims/mxnet.py 61-77, 86-93 |
| InitModel | model.py 118-120, 312-334; util.py 293-318; layers/linear.py 15-32, 34-39, 49-60; layers/relu.py 43-47, 59-71; layers/softmax.py 62-77, 96-107; layers/maxout.py 16-41, 44-52, 69-83; layers/layernorm.py 13-20, 22-26, 39-55, 58-62; layers/chain.py 26-37, 67-102; layers/add.py 25-28, 51-68; layers/concatenate.py 42-45, 143-155; layers/residual.py 21-24, 53-64; layers/tuplify.py 50-69; layers/dropout.py 12-18 |
| InstrModel | layers/with_debug.py 10-44; layers/with_nvtx_range.py 9-45; layers/with_signpost_interval.py 9-50; util.py 612-621; model.py 307-310, 312-319, 330-334, 439-443, 478-525 |
| KerasModel | layers/tensorflowwrapper.py 26-114; shims/tensorflow.py 21-60, 233-277; layers/mxnetwrapper.py 10-48; shims/mxnet.py 104-123; util.py 595-600 |
| KernelModel | backends/cpu_kernels.hh 31-145, 468-479; backends/numpy_ops.pyx 189-220, 484-519, 588-595; backends/ops.py 888-897, 1378-1384 |
| LossModel | util.py 253-290; loss.py 49-431 |
| LstmKernelModel | backends/ops.py 858-880, 1432-1602, 1651-1692; backends/numpy_ops.pyx 159-181, 636-1075 |
| LstmLayerModel | layers/lstm.py 118-156; backends/numpy_ops.pyx 172-181; backends/ops.py 870-880; model.py 118-156, 230-238 |
| LstmModel | backends/ops.py 1452-1464, 1526-1543, 1597-1602, 1605-1648; layers/lstm.py 65-115 |
| MakeModel | backends/ops.py 75-82, 499-771, 1386-1391; backends/numpy_ops.pyx 55-76; backends/cupy_ops.py 32-38, 86-102; util.py 182-188; model.py 550-562, 628-638 |
| MapperModel | layers/remap_ids.py 15-28, 31-44, 47-67, 70-97; layers/premap_ids.pyx 17-31, 36-58, 61-85; layers/strings2arrays.py 20-30 |
| MatModel | shared vocabulary (see its comments) |
| MypyModel | mypy.py 13-15, 26-27, 30-36, 38-192, 195-213, 216-245, 248-249 |
| NestModel | util.py 342-367, 370-385; types.py 1255-1297 |
| NodeModel | model.py 67-122, 142-150, 176-185, 187-196, 198-212, 214-216, 218-228, 230-238, 240-242, 244-250, 252-266, 268-270, 272-296, 298-305, 374-387, 855-865, 868-876; backends/_param_server.py 38-63, 65-79; layers/chain.py 29-34 |
| NumModel | shared vocabulary (see its comments) |
| OptBuildModel | optimizers.py 12-207, 209-218, 224-228, 230-283, 285-366, 368-395 |
| OptModel | optimizers.py 108-395; backends/ops.py 1172-1213; backends/numpy_ops.pyx 521-535, 598-633 |
| PosModel | backends/numpy_ops.pyx 548-557, 570-585; backends/ops.py 1369-1376 |
| ReduceModel | backends/ops.py 1221-1348; backends/numpy_ops.pyx 0, 338-482; backends/cpu_kernels.hh 83-338 |
| RegModel | config.py 8-16; layers/add.py 12; layers/bidirectional.py 12; layers/cauchysimilarity.py 12; layers/chain.py 13; layers/clipped_linear.py 13, 92, 117; layers/clone.py 12; layers/concatenate.py 28; layers/dish.py 13; layers/dropout.py 10; layers/embed.py 15; layers/expand_window.py 10; layers/gelu.py 13; layers/hard_swish.py 13; layers/hard_swish_mobilenet.py 13; layers/hashembed.py 15; layers/layernorm.py 12; layers/linear.py 13; layers/list2array.py 15; layers/list2padded.py 11; layers/list2ragged.py 11; layers/logistic.py 11; layers/lstm.py 13, 43; layers/maxout.py 16; layers/mish.py 16; layers/multisoftmax.py 12; layers/mxnetwrapper.py 10; layers/noop.py 9; layers/padded2list.py 11; layers/parametricattention.py 12; layers/parametricattention_v2.py 15; layers/premap_ids.pyx 36; layers/pytorchwrapper.py 18, 39, 79; layers/ragged2list.py 11; layers/reduce_first.py 12; layers/reduce_last.py 12; layers/reduce_max.py 12; layers/reduce_mean.py 12; layers/reduce_sum.py 12; layers/relu.py 16; layers/remap_ids.py 15, 47; layers/residual.py 14; layers/resizable.py 11; layers/siamese.py 14; layers/sigmoid.py 13; layers/sigmoid_activation.py 8; layers/softmax.py 13, 35; layers/softmax_activation.py 11; layers/sparselinear.pyx 19, 34; layers/strings2arrays.py 14; layers/swish.py 13; layers/tuplify.py 10; layers/uniqued.py 13; layers/with_array.py 15; layers/with_array2d.py 15; layers/with_cpu.py 11; layers/with_flatten.py 14; layers/with_flatten_v2.py 14; layers/with_getitem.py 10; layers/with_list.py 10; layers/with_padded.py 12; layers/with_ragged.py 15; layers/with_reshape.py 11; loss.py 171, 183; initializers.py 23, 33, 43; schedules.py 69, 90, 101; optimizers.py 33, 58, 83; backends/apple_ops.pyx 15; backends/cupy_ops.py 20; backends/mps_ops.py 24; backends/numpy_ops.pyx 37 |
| ResizeModel | layers/linear.py 35-39, 49-61; layers/resizable.py 11-21, 41-45, 48-83, 86-93 |
| ScalerModel | shims/pytorch_grad_scaler.py 20-56, 62-91, 93-120, 134-155, 157-180; shims/pytorch.py 131-160, 164-180, 182-195, 206-258 |
| SchedModel | optimizers.py 398-440; schedules.py 34-40, 47-66, 79-87, 96-98, 120-124, 148-153, 156-157, 160-189, 192-237, 240-260, 263-286, 289-301, 322-331, 343-353 |
| Seq2colModel | backends/cpu_kernels.hh 354-466; backends/numpy_ops.pyx 252-324, 560-567; backends/ops.py 194-233; layers/expand_window.py 23-36, 39-57 |
| SeqModel | backends/ops.py 319-483; types.py 1109-1131, 1134-1160, 1163-1177, 1179-1186, 1188-1194, 1199-1219, 1221-1233; layers/lstm.py 159-171, 174-182 |
| SerialModel | model.py 571-626, 649-677, 702-747, 834-849 |
| ShapeModel | layers/with_getitem.py 24-34; layers/with_flatten_v2.py 21-55; layers/with_flatten.py 19-44; layers/with_reshape.py 23-37; layers/array_getitem.py 38-51 |
| SoftModel | backends/ops.py 811-856; layers/softmax_activation.py 16-22; layers/softmax.py 63-94, 112-115; util.py 634-642; layers/multisoftmax.py 29-45 |
| SparseModel | layers/sparselinear.pyx 81-94, 103-123, 129-156, 160-187, 189-216 |
| TorchBuildModel | shims/shim.py 28-37; shims/pytorch.py 48-107; layers/pytorchwrapper.py 19-210; shims/pytorch_grad_scaler.py 20-57, 59-61; shims/torchscript.py 31-45, 47-66; layers/torchscriptwrapper.py 13-63, 66-93 |
| TrainModel | model.py 318-349; optimizers.py 230-283 |
| UniqModel | layers/uniqued.py 30-54 |
| UpdateModel | model.py 336-372; shims/shim.py 48-50 |
| ValidModel | util.py 80-91, 552-592; types.py 134-137, 391-393, 457-460, 507-510, 554-557, 617-620, 668-671, 713-716, 767-770, 826-829, 883-886, 929-932, 999-1002, 1305-1322; model.py 312-320 |
| ViewModel | backends/numpy_ops.pyx 81-157, 189-192, 222-250, 521-535, 1114-1124; backends/ops.py 763-771; backends/cpu_kernels.hh 257-290, 341-352 |
| WInitModel | layers/sigmoid.py 29-36, 53-65; layers/multisoftmax.py 19-26, 48-56; layers/embed.py 74-83; layers/hashembed.py 39-46, 94-101; layers/cauchysimilarity.py 17-23, 47-55; layers/parametricattention.py 33-41; layers/parametricattention_v2.py 17-34, 55-73; layers/sparselinear.pyx 61-68; layers/lstm.py 24-40, 65-116; layers/with_list.py 10-18, 33-39; layers/with_ragged.py 39-47; layers/with_padded.py 12-20, 46-52; layers/with_flatten.py 47-53; layers/with_flatten_v2.py 58-66; layers/with_array.py 15-27, 45-56; layers/with_array2d.py 15-27, 45-56; layers/with_reshape.py 40-56; layers/with_getitem.py 37-43; layers/map_list.py 31-36; layers/uniqued.py 57-65; layers/resizable.py 10-26, 34-38; layers/with_cpu.py 11-22, 35-36; layers/siamese.py 13-25, 44-53; layers/bidirectional.py 38-43; types.py 1188-1194; model.py 312-320, 330-334 |
| WrapModel | layers/mxnetwrapper.py 39-116; util.py 88-138, 145-174, 177-183, 388-413, 416-461, 464-483; shims/pytorch.py 90-94, 104-114, 116-162; layers/pytorchwrapper.py 19-34, 37-76, 213-230, 236-267, 270-281, 287-303, 306-318; layers/with_cpu.py 24-33, 39-49, 52-58 |

## Findings

Behaviour found while modelling that contradicts a property one would expect. Items with a theorem are named `..._refuted`
(listed after the findings); the others are remarks from reading, visible in the model but without a theorem of their own.

* C03-C05: `set_param(name, None)` leaves the old value readable; `set_grad`/the first `inc_grad` keep the caller's array, so later increments change it.
* C06: a shim listed under two nodes gets `finish_update` twice.
* C07: `use_params` does not restore the parameters when the body raises.
* C09, C10: `replace_node`/`remove_node` raise after a partial edit when a reference is unset.
* C11: `copy` drops references, a copied shim keeps the original's id, weight tying by a shared array is lost.
* C12, C13: sibling references accepted by the constructor serialize but cannot be deserialized while `can_from_dict` says True; a failed `from_dict` leaves the model partly changed.
* C15: `define_operators` and `data_validation` do not restore the previous value when the body raises.
* C17, C20: RAdam's step buffer is shared across keys (harmful with scheduled betas); its bias correction uses exponent n+1 and `lr_scale` is ignored.
* C24, C25: `slanted_triangular` divides by zero when `num_steps * cut_frac < 1` and gives negative rates past the end; `plateau` accepts an improving score from an earlier step and never resets `n_plateaus`.
* C26, C27: fractional batch sizes drop items, size 0 never ends, `multibatch` does not check that the lengths agree.
* C28, C31, C32: sequences of width 0 lose rows in flatten/unflatten; batches without rows lose their width in packing and in Ragged adapters; `with_array` on a Padded whose gradient comes in another order is silently misaligned.
* C33: `Ragged[-1]` loses the length, `Ragged[:k]` raises TypeError, a negative slice start takes data from 0, steps other than 1 include skipped rows, an array index mixing empty and non-empty sequences raises ValueError, an integer index drops `data_shape`; Padded indexing stores lengths in `size_at_t`, uses the time axis for array indices and does not renumber `indices`.
* C34: NumpyOps reductions raise IndexError on batches of only empty sequences, lengths are not checked when the width is 0, a negative `which` passes the kernel's check, backprop with too few gradient rows reads out of bounds.
* C35: `backprop_seq2col` accepts a gradient width that is no multiple of 2nW+1; NumpyOps.seq2col of other dtypes passes lengths to a method that asserts there are none.
* C36: maxout backprop: a negative `which` writes into the previous cell, an empty batch raises IndexError; forward raises for O = 0 or P = 0.
* C37: `gather_add` accepts an index equal to the number of rows and negative ones, raises on an empty batch; the fast path of `scatter_add` skips negative ids (the fallback wraps them) and writes out of bounds for large ids.
* C38: SparseLinear does not check lengths against the features; a negative length moves the pointer back; a table of length 0 divides by zero; backward raises on an empty batch; v1 never uses weights from L+nO-1 on; the directive `bounds_check` is misspelt.
* C39: `ngrams` raises IndexError on an empty key array. The base class's `hash` returns signed 32-bit numbers, other numbers than NumpyOps's for half of the keys; its `ngrams`, which CupyOps inherits, cuts the 64-bit hashes to signed 32 bits, so the keys differ between CPU and GPU and can collide.
* C40: HashEmbed's callback after an empty batch raises NameError; Embed's forward wraps negative ids but the fast scatter drops their gradient; the callback masks the caller's gradient in place.
* C41: `add` of layers returning Ragged raises TypeError; `add` of layers returning lists or tuples joins them instead of adding; `concatenate` over lists extends lists instead of adding gradients, over Ragged its callback raises TypeError; `tuplify`/`add` over list inputs extend lists; `residual` on an empty Ragged loses the width; a chain of no layers raises NameError; `clone` with negative n raises TypeError.
* C42: LayerNorm broadcasts inputs of width 1 unchecked; ClippedLinear with slope 0 divides by zero in its callback; the NumPy Maxout callback raises on an empty batch. HardSigmoid/HardTanh/ReluK do not pass `init_b` on (remark).
* C43: a list gradient that is too short is silently truncated by zip; an empty Ragged loses its width in training; tuples come back as lists.
* C44: `clipped_linear` with negative slope backprops zero; `sigmoid`/`swish` clip at ±20 so the backprop is wrong beyond; `gelu_approx`'s backprop exceeds 2 without bound for x ≥ 10^7; the polynomial `gelu` is not differentiable at 0; the Dish layer passes X instead of Y_preact to the backprop.
* C45: MultiSoftmax never applies softmax; `softmax_sequences` clips at ±20; lengths summing to 1 broadcast silently.
* C46: negative labels count from the end.
* C47: negated labels with label smoothing raise ValueError; out-of-range missing labels raise IndexError though masked; all-zero 2d truths count as label 0 for `missing_value`; the caller's 2d truths array is modified when names are given; `get_loss` is a sum of squares, not the cross-entropy; cosine rows of constantly -1e-8 divide by zero.
* C48: a bidirectional LSTM with odd nO gets a narrower output; nI = 0 can be initialized but not read; the layer passes H0/C0 swapped; the re-assembled gradient of the hidden bias is always zero.
* C49: shrinking raises ValueError; the resizable container's own dims are never updated.
* C50: predicates matching integers also convert the positions of ArgsKwargs; dict keys that become equal lose entries, unhashable ones raise.
* C51: `add` whose first layer returns its input overwrites the caller's array; `add` after Relu (Sigmoid, Logistic, Swish, softmax_activation) overwrites the output the callback captured, giving wrong gradients; `tuplify`'s callback overwrites the first gradient; `residual` on Padded adds in place.
* C52: `bidirectional` reverses with `[::1]`, so it reverses nothing, and gives both layers the first half of the gradient.
* C53: `with_getitem(-1)` duplicates items; `with_flatten.v2` loses or truncates outputs of other length; `with_flatten.v1` splits 2d gradients along columns and gives one output for an empty batch; `with_reshape`'s callback raises or passes a 3-axis gradient; `array_getitem` overwrites the gradients of repeated ids and returns empty arrays unindexed.
* C54: `uniqued` averages the input gradients of equal keys; layers looking at other columns get the first row's output.
* C55: the default deserialization never loads the weights; accumulated gradients are unscaled again by each later callback; `use_params` ignores the optimizer's (id, name) averages, raises RuntimeError for partial keys and does not restore when the body raises; scaling in place changes the caller's tensors.
* C56: the base forward processes only the first row of each step; the base backprop returns zero gradients; the NumPy backward starts its gradients from the parameters, never backprops the first step of each sequence and uses Y[t] for Y[t-1].
* C58: `chain.init` and `tuplify.init` without data initialize every layer twice, so a layer in d nested chains is initialized 2^d times; every layer of a chain without nO (not only the last) takes the width of Y; `add.init` and `residual.init` do not check that widths agree, so the model fails when used; `add.init` raises KeyError when its first layer has no nO (Dropout); `concatenate.init` passes Y to each layer, so its width is a multiple of Y's.
* C59: CupyOps `reduce_mean`, `backprop_reduce_mean`, `reduce_max` and `backprop_reduce_max` forget to return the result of the base class for other dtypes; the CUDA `reduce_mean` divides by the length plus 1e-10 while its backprop divides by the length; `backprop_reduce_sum/mean/max` do not check that there are as many gradient rows as lengths and `maxout` not that there is a piece, so kernels read outside their arrays.
* C60: the GPU's `swish` and `gelu` jump at their thresholds 17 and 6; `swish` of the two backends differs by any amount for very negative inputs, because the CPU clips the sigmoid at -20; `CupyOps.adam` ignores `mod_rate`; with slope 0 the GPU's `backprop_clipped_linear` gives zeros where the CPU raises ZeroDivisionError.
* C61: `CupyOps.hash` reads 8 bytes per id whatever the dtype of the ids, so that narrower ids are read outside the array; it takes the low 32 bits of a seed that the CPU refuses.
* C62: parametric attention gives all scores above 20 the same weight, and returns a gradient there although the output does not move; a batch without rows raises IndexError with NumpyOps only. `CauchySimilarity` broadcasts one row against several, and then returns a gradient of the wrong shape; negative weights can make its denominator 0. `reduce_max` has no derivative where the maximum is attained twice.
* C63: `PyTorchWrapper` returns the gradient of a list as a tuple; its default conversion wraps the output in a tuple, so that backpropagation raises for modules with several outputs; arrays of integers raise in training because they cannot require a gradient; a module that raises in `predict` stays in evaluation mode; the callback of a prediction returns Ellipsis or raises AttributeError. `with_cpu` runs its layer in training mode even for predictions, and raises TypeError for dicts.
* C64: `normal_init(mean=m)` draws with mean 0 and standard deviation m: its default gives zeros, and a negative mean raises ValueError. The LeCun, He and Glorot schemes take the second dimension as fan-in, which for the weights of Maxout (outputs, pieces, inputs) is the number of pieces. Shapes of one dimension raise IndexError.
* C65: the callback of `remap_ids.v2` returns `xp.empty(dY.shape)`: uninitialised memory, of another shape than a matrix input; the default table of `remap_ids` is a mutable default argument, so layers made without a table share their entries; `premap_ids` silently cuts values to their low 32 bits where `remap_ids` raises OverflowError, and raises for int32 or uint64 arrays.
* C66: the callback of a TensorFlow model with several arguments takes `X.args[0]` (the first argument) for the list of arguments: it returns gradients of its rows and the next finish_update raises AssertionError; dict inputs raise IndexError. `use_params` never finds the averages of an optimizer (its keys are pairs), leaves the block's values when the block raises, and with equal weight names restores the wrong values. `copy`, `to_device` of TensorFlow models reload the new model's own fresh weights; after `copy` the original has no model. The callback of a prediction is an unbound name. MXNet's `to_device` puts a shim where the block should be.
* C67: `relu`, `mish` (in place), `backprop_relu`, `backprop_mish` and `adam` of NumpyOps pass `.data` to C without looking at strides: on arrays with gaps they read and write neighbouring elements, on reversed arrays they leave the buffer, and a transposed gradient is combined with the wrong elements. `gemm` computes into a copy when `out` is not contiguous, leaving `out` as it was, and does not check its shape (a smaller one is overrun). `NumpyOps.mish` drops the threshold for types other than float32 and float64.
* C68: `cpu_position_encode` uses the exponent 2*j/D with j already twice the number of the pair, so period 10000 gives the encoding of period 10^8; for odd D the last column uses the stale d and repeats column D-3; `out` with gaps is written without its strides.
* C69: `require_gpu(id)` sets CupyOps before it activates the device, so a wrong id raises with the GPU backend current; `prefer_gpu` raises if the GPU is not of the kind the platform is expected to have; `set_gpu_allocator('pytorch')` before `require_gpu` does nothing, silently; with CuPy on a GPU and a CPU build of PyTorch `get_torch_default_device` raises; `to_gpu(1)` puts parameters on device 1 and shims on device 0 (`CupyOps()` always has device_id 0); `to_gpu` stops half way at a shim without `to_device`; `from thinc.api import enable_tensorflow` imports thinc.util, whose copy of `has_tensorflow` stays False, so the documented call has no effect there (likewise MXNet).
* C70: An optimizer call that raises (for example Adam with beta1 0 at this step) has already advanced `nr_update` for the key, so repeating the step uses another bias correction.
* C71: with_list, with_padded, with_cpu and resizable copy their layer's dims when built and never update them, so add of two with_cpu(LayerNorm()) raises at the end of init; siamese without data never initializes its first layer, and cannot be built while that layer's nI is unset; with_reshape without data initializes its layer twice; Sigmoid initializes with data of another width than its nI; a bidirectional LSTM with odd nO has states of width (nO-1)/2, so its outputs are one column narrower than nO; ParametricAttention_v2 passes the query's width to its key transform only if that already has an nO (`if key_transform.has_dim("nO")`).
* C72: The closures of with_debug (forward and init), with_nvtx_range and with_signpost_interval (init) refer to the wrapped `layer` instead of the `model` they are called with, so `model.copy()` gives a copy that uses the original's parameters (with_debug) and whose initialization initializes the original (all three); `use_nvtx_range` has no `try`/`finally`, so an exception leaves the range open.
* C73: `validate_fwd_input_output` cuts lists to five items, so a list whose sixth item has the wrong type passes, and a list given for a tuple type of more than five items is refused although it fits; the `TypeError` branch of `validate_array` is unreachable because `get_array_module` raises ValueError first.
* C74: `Ops.asarray` (the base class) ignores `dtype` for PyTorch tensors, unlike NumpyOps and CupyOps; after `from_bytes` on a big-endian machine the parameters keep the little-endian dtype they were sent with, since `asarray` is called without a dtype; the `asarray1f`...`asarray4i` variants do not check the number of axes.
* C75: `_accelerate.gemm` returns `numpy.empty` unfilled (or `out` unchanged) if the inner dimension is 0, where the product is all zeros; `NumpyOps.gemm` does not check the shape of `out`, so that BLAS writes beyond a smaller one.
* C76: `concatenate()` without layers is valid at run time (it gives `noop()`), but the mypy plugin raises IndexError on it, which is not caught and crashes mypy; one argument whose type is a subclass of `Model` turns off the checks of the whole call.
* C77: `Relu` and the other dense layers with `dropout` give a chain whose `nO` is unset, even after `initialize()` without data; `HardSigmoid`, `HardTanh` and `ReluK` ignore `init_b`; `add` and `concatenate` extend their first argument in place if it is an `add`/concatenation, so the model passed in changes and `add(f, f)` of an `add` makes a model that contains itself; `add` recognises sums by the name "add", so any model of that name is returned as it is, with the other layers appended.
* C78: `Model.to_disk` opens (and so empties) the file before it serializes: a model with a dangling reference destroys the previous checkpoint, where `Shim.to_disk` serializes first; tuples in attributes come back as lists, so `array_getitem((0, 1))` takes rows 0 and 1 after `from_bytes` instead of one element; `can_from_bytes` raises AttributeError for valid msgpack that is not a dictionary.
* C79: `pytorch_to_torchscript_wrapper` drops the shim's config, optimizer and custom serialization functions and the model's dimensions and name, and moves every parameter to the device of the first; `TorchScriptShim.from_bytes` replaces the config before it loads the module, so a failed load leaves a mix.
* C80: `MXNetShim._load_params` lets MXNet open the temporary file by name before the written bytes are flushed: models whose parameters fit in the buffer (4-8 kB) cannot be loaded (checked: Python's NamedTemporaryFile shows 0 bytes to a second reader); `make_tempfile` has no `finally`, so failures leave files behind; `TensorFlowShim.from_bytes` without a model stores the new one in `_model_initialized` and then calls `None.set_weights`; it would also ignore `eg_args`; with a model, the catalogue name is ignored.
* C81: `_custom_kernels.cu` declares loop variables, bounds and offsets as `int`: the last `b += _loop_stride` overflows if the iterations and the threads of the grid exceed 2^31, `bo * P` in maxout, `indices[...] * O` in gather_add and `t * O` in the reductions for arrays of more than 2^31 numbers, although each size passes the checks.
* C82: `HC0` is registered as a parameter of the LSTM layer and the output depends on it, but `backprop` calls `inc_grad` only for `LSTM`: the initial state is never learnt.
* C83: In float32, a gradient with an element of 2e19 or more has an infinite norm, and `clip_gradient` then multiplies it by 0: the whole gradient is lost silently. Without clipping such a gradient makes the second moment of Adam infinite for ever, and the weight never moves again. The unrolled `argmax` of `cpu_kernels.hh` loses a larger candidate after a NaN (P = 3) that the loop (P >= 4) would find. `relu` of minus infinity is 0 with NumpyOps and NaN with the others. `cpu_reduce_mean` of ten ones is 1.0000001.
* C84: `SparseLinear` with CupyOps raises a TypeError for every input: `_begin_gpu_update` copies the inputs but not the parameters. The CuPy allocators declare up to three bytes more than they allocate. `PyTorchLSTM(bi=True)` with an odd nO declares one column more than it returns. `get_gradients` returns zero gradients despite its docstring. `logloss` is negative for perfect predictions.
* C85: The ids of nodes (`Model.global_id`) and shims (`Shim.global_id`) come from separate counters but are keys of the same optimizer state: the first node and the first PyTorch module share the state of parameters with the same name (C85_keys_refuted, C85_collision_refuted). `Shim.copy` is a deepcopy and keeps the id, so a copied shim shares its optimizer state with the original, while a copied node does not (C85_copied_shim, C85_copy_refuted).
* C86: The config example in `website/docs/api-initializers.md` 144 asks for the layer `linear.v1`; only `Linear.v1` is registered, so it raises (C86_documented_refuted). Registering a name again replaces the function without an error, and entry points of installed packages take precedence over thinc's own functions (C86_stable_refuted, C86_entry_points). TensorFlowWrapper and the TorchScript wrapper are not registered, so no config can name them (C86_unknown_example).

Theorems: `C04_unset_read_refuted`; `C05_set_grad_aliases_refuted`; `C07_exception_refuted`; `C09_unset_ref_refuted`; `C10_partial_edit_refuted`; `C11_refs_refuted`, `C11_shim_id_refuted`, `C11_tied_array_refuted`; `C12_refs_refuted`; `C13_partial_update_refuted`; `C15_define_exception_refuted`, `C15_validation_exception_refuted`; `C17_radam_schedule_refuted`; `C20_radam_bias_refuted`, `C20_radam_lr_scale_refuted`; `C24_slanted_short_refuted`, `C24_slanted_negative_refuted`; `C25_order_refuted`; `C26_minibatch_fractional_sizes_refuted`; `C27_multibatch_length_check_refuted`; `C28_zero_width_refuted`; `C31_no_rows_refuted`, `C31_gradient_order_refuted`; `C32_no_rows_refuted`; `C33_last_refuted`, `C33_open_slice_refuted`, `C33_negative_start_refuted`, `C33_step_refuted`, `C33_empty_refuted`, `C33_padded_refuted`; `C34_only_empty_refuted`, `C34_zero_width_refuted`, `C34_negative_position_refuted`, `C34_negative_position_fault_refuted`, `C34_few_gradient_rows_refuted`; `C35_gradient_width_refuted`; `C36_negative_position_refuted`, `C36_empty_batch_refuted`; `C37_gather_bounds_refuted`, `C37_gather_empty_refuted`, `C37_scatter_bounds_refuted`; `C38_lengths_refuted`, `C38_no_weights_refuted`, `C38_empty_batch_refuted`; `C39_backends_refuted`, `C39_ngrams_empty_refuted`, `C39_ngrams_backends_refuted`; `C40_hashembed_empty_refuted`, `C40_embed_negative_refuted`, `C40_gradient_masked_in_place_refuted`; `C41_add_lists_refuted`, `C41_add_tuples_refuted`, `C41_concatenate_list_refuted`, `C41_concatenate_ragged_refuted`; `C42_layernorm_width_refuted`; `C43_short_gradient_refuted`, `C43_empty_ragged_refuted`; `C44_clipped_negative_slope_refuted`, `C44_sigmoid_refuted`, `C44_swish_refuted`, `C44_gelu_approx_refuted`, `C44_gelu_refuted`, `C44_Dish_refuted`; `C45_sequences_refuted`, `C45_MultiSoftmax_refuted`; `C47_smoothed_negatives_refuted`; `C48_odd_width_refuted`; `C49_shrink_refuted`, `C49_container_dim_refuted`; `C50_integers_refuted`, `C50_keys_refuted`; `C51_add_overwrites_input_refuted`, `C51_add_later_layers_refuted`, `C51_add_relu_gradient_refuted`, `C51_tuplify_overwrites_gradient_refuted`, `C51_residual_padded_refuted`; `C52_reversed_input_refuted`, `C52_gradient_refuted`; `C53_getitem_last_refuted`, `C53_flatten_v2_count_refuted`, `C53_flatten_v1_columns_refuted`, `C53_flatten_v1_gradient_refuted`, `C53_flatten_v1_empty_refuted`, `C53_reshape_gradient_refuted`, `C53_array_getitem_repeated_refuted`, `C53_array_getitem_empty_refuted`, `C53_array_getitem_empty_gradient_refuted`; `C54_inputs_refuted`, `C54_other_columns_refuted`; `C55_accumulation_refuted`, `C55_averages_refuted`, `C55_use_params_partial_keys_refuted`, `C55_use_params_raise_refuted`, `C55_deserialize_refuted`; `C56_hidden_weights_refuted`, `C56_base_forward_refuted`, `C56_base_refuted`, `C56_numpy_refuted`; `C58_add_mismatch_refuted`, `C58_residual_mismatch_refuted`, `C58_concat_width_refuted`; `C59_shared_cells_refuted`, `C59_reduce_mean_refuted`, `C59_fallback_returns_refuted`, `C59_unchecked_refuted`; `C60_swish_continuous_refuted`, `C60_swish_backends_refuted`, `C60_gelu_continuous_refuted`, `C60_mod_rate_refuted`; `C61_narrow_ids_refuted`; `C62_attention_empty_refuted`, `C62_attention_clip_refuted`, `C62_cauchy_broadcast_refuted`, `C62_reduce_max_tie_refuted`; `C63_list_refuted`, `C63_eval_refuted`, `C63_with_cpu_refuted`; `C64_normal_init_refuted`, `C64_maxout_refuted`; `C65_gradient_refuted`, `C65_shared_refuted`; `C66_tf_arguments_refuted`, `C66_tf_arguments_finish_refuted`, `C66_tf_keywords_refuted`, `C66_tf_use_params_raise_refuted`, `C66_tf_averages_refuted`, `C66_tf_clone_refuted`, `C66_tf_copy_refuted`, `C66_tf_from_weights_refuted`, `C66_tf_predict_refuted`, `C66_mx_to_device_refuted`, `C66_tf_names_refuted`; `C67_unary_strided_refuted`, `C67_unary_reversed_refuted`, `C67_binary_order_refuted`, `C67_binary_gaps_refuted`, `C67_mish_threshold_refuted`, `C67_gemm_out_refuted`, `C67_gemm_small_refuted`, `C67_adam_strided_refuted`; `C68_gaps_refuted`, `C68_period_refuted`, `C68_odd_refuted`; `C69_require_gpu_atomic_refuted`, `C69_prefer_gpu_raises_refuted`, `C69_default_device_refuted`, `C69_allocator_silent_refuted`, `C69_enable_documented_refuted`, `C69_to_gpu_shims_refuted`, `C69_to_gpu_atomic_refuted`; `C70_failed_call_refuted`; `C71_add_of_wrapped_refuted`, `C71_sigmoid_width_refuted`, `C71_lstm_odd_refuted`, `C71_key_width_refuted`; `C72_copy_refuted`, `C72_copy_init_refuted`, `C72_range_left_open_refuted`; `C73_sixth_refuted`, `C73_tuple_refuted`; `C74_base_dtype_refuted`, `C74_order_refuted`; `C75_inner_refuted`, `C75_out_refuted`; `C76_subclass_refuted`, `C76_no_arguments_refuted`; `C77_add_self_refuted`, `C77_concatenate_self_refuted`, `C77_add_name_refuted`, `C77_dense_width_refuted`; `C78_to_disk_erases_refuted`, `C78_can_from_bytes_refuted`, `C78_getitem_refuted`; `C79_convert_refuted`, `C79_script_load_refuted`; `C80_name_refuted`, `C80_name_ignored_refuted`, `C80_never_new_refuted`, `C80_mxnet_leak_refuted`, `C80_mxnet_small_refuted`; `C81_loop_refuted`, `C81_maxout_refuted`, `C81_gather_add_refuted`, `C81_backprop_reduce_rows_refuted`, `C81_backprop_reduce_sum_refuted`, `C81_seq2col_refuted`, `C81_backprop_seq2col_refuted`; `C82_initial_state_refuted`; `C83_mean_of_ones_refuted`, `C83_relu_agree_refuted`, `C83_clip_not_zero_refuted`, `C83_maxout_nan_refuted`; `C84_allocator_refuted`, `C84_sparse_gpu_refuted`, `C84_pytorch_lstm_refuted`, `C84_get_gradients_refuted`, `C84_round_trip_torch_refuted`, `C84_logloss_refuted`; `C85_keys_refuted`, `C85_collision_refuted`, `C85_copy_refuted`; `C86_stable_refuted`, `C86_documented_refuted`.

## Trusted base

* Coq 8.16.1 kernel.
* Axioms: exactly what `Print Assumptions` lists under each theorem (table below). Theorems over R list the standard library's
  real-number axioms; nothing else is assumed. No axiom, parameter or admitted proof of our own.
* The correspondence between the Python/Cython/C++ source and the Gallina model is by reading only.
* Assumed semantics of Python, NumPy and PyTorch operations used by the code: stated in the comments of the model files where used
  (slicing with clamping and negative indices, broadcasting, `split`, `zip` truncation, stable `sorted`, dict order).

### Not modelled

* Floating-point rounding, NaN and infinities, except in C83 (sums, relu, maxout, clipping, Adam, loss scale over IEEE 754 floats); integer overflow other than in hashing, SparseLinear's indices (C38) and the CUDA kernels (C81); dtypes other than as a case distinction (C73, C74).
* The GPU's memory model: single accesses are sequentially consistent, and arrays that are only read do not change during a launch (C59). BLAS: a matrix product is the mathematical one; what is modelled is which functions are called with which sizes (C75).
* The internals of PyTorch, TensorFlow, Keras, MXNet and CuPy: their modules, tapes, files and tensors are oracles or small state machines (C55, C63, C66, C79, C80), described in the model files.
* The byte encoding of msgpack (a value round-trips, C78); the config system (confection/catalogue) apart from the registry of Keras classes; pydantic itself (C73 models the validators that thinc adds).
* Random numbers: generators are oracles, initializers are functions of what was drawn (C64, C71). GPU memory pools are named values (C69).
* Memory safety except where an index check is itself the property.
* Code without a line in the table of cited lines: type aliases and overloads, registration decorators, docstrings, `__all__`, messages of exceptions.

### Axioms per theorem

* No axioms (closed under the global context): all 667 other theorems.

* `ClassicalDedekindReals.sig_forall_dec`: C64_zero_init.

* `ClassicalDedekindReals.sig_forall_dec`, `FunctionalExtensionality.functional_extensionality_dep`: C20_bias_corrected_convex, C41_chain, C41_clone, C41_clone_zero, C41_map_list, C41_noop, C41_resizable, C41_siamese, C41_with_debug, C43_extreme_rates, C43_factors, C46_distribution, C59_reduce_mean_close, C59_reduce_mean_gap, C62_cauchy_facts, C82_masked_weights, C82_no_dropout.

* `ClassicalDedekindReals.sig_forall_dec`, `ClassicalDedekindReals.sig_not_dec`, `FunctionalExtensionality.functional_extensionality_dep`: C19_momentum_without_beta1, C19_sgd, C20_adam_step, C20_kernels_agree, C20_moments, C20_radam_step, C21_clip_gradient, C22_average_bounds, C22_average_step, C22_decay, C25_order_checked, C25_order_refuted, C25_same_evaluation, C34_few_gradient_rows_refuted, C34_first, C34_first_adjoint, C34_first_last_errors, C34_last, C34_last_adjoint, C34_max, C34_max_adjoint, C34_max_errors, C34_max_position_checked, C34_max_positions, C34_mean, C34_mean_adjoint, C34_negative_position_fault_refuted, C34_negative_position_refuted, C34_no_fault, C34_only_empty_refuted, C34_sum, C34_sum_adjoint, C34_sum_mean_errors, C34_zero_width_refuted, C35_adjoint, C35_layer_array, C35_layer_ragged, C35_portable_adjoint, C36_adjoint, C36_empty_axes, C36_maxout, C37_gather_add, C37_scatter_add, C37_scatter_adjoint, C37_scatter_bounds_refuted, C37_scatter_generic_checked, C37_scatter_negative_skipped, C38_adjoint, C38_empty_batch_refuted, C38_scores, C38_v1_unused_weights, C40_embed_adjoint, C40_embed_negative_refuted, C40_embed_range_checked, C40_gradient_masked_in_place_refuted, C40_hashembed_adjoint, C40_hashembed_vectors, C41_add, C41_add_ragged_raises, C41_concatenate, C41_concatenate_list_refuted, C41_concatenate_ragged_refuted, C41_nested, C41_residual, C41_tuplify, C42_clipped_linear, C42_clipped_slope_zero, C42_gradient_rows, C42_input_width, C42_layernorm, C42_layernorm_width_refuted, C42_linear, C42_maxout, C42_maxout_width, C42_missing_bias, C42_relu, C43_empty_ragged_refuted, C43_gradient, C43_short_gradient_refuted, C43_training, C44_Dish_refuted, C44_Dish_refuted_shapes, C44_HardSwish, C44_HardSwishMobilenet, C44_clipped_linear, C44_clipped_linear_forward, C44_clipped_negative_slope_refuted, C44_dish, C44_hard_sigmoid, C44_hard_swish, C44_hard_swish_mobilenet, C44_hard_tanh, C44_relu, C44_relu_k, C44_tanh, C45_sequence_distribution, C45_shift, C46_default, C46_invalid, C46_label_range, C46_no_classes, C46_rows, C47_L2, C47_L2_errors, C47_cosine, C47_cosine_errors, C47_cosine_value, C47_errors, C47_float_missing, C47_floats, C47_labels, C47_loss_value, C47_no_names, C47_sequences, C47_sequences_errors, C47_smoothed_negatives_refuted, C47_strings, C48_join, C48_split_join, C49_scores, C49_shrink_refuted, C49_to_none, C52_gradient_refuted, C54_transparent, C54_unique_rows, C55_accumulation_refuted, C55_scale, C55_transparent, C57_L2, C57_cosine, C57_step, C58_width_ids, C59_backprop_reduce_max, C59_backprop_reduce_mean, C59_backprop_reduce_sum, C59_backprop_seq2col, C59_gather_add, C59_maxout, C59_reduce_max, C59_reduce_mean, C59_reduce_mean_refuted, C59_reduce_sum, C60_adam, C60_adam_shapes, C60_clip_gradient, C60_gelu_inside, C60_mod_rate_refuted, C60_relu, C60_slope_zero, C62_attention_distribution, C62_cauchy, C62_cauchy_arity, C62_cauchy_broadcast_refuted, C62_cauchy_errors, C62_cauchy_siamese, C62_reduce_first, C62_reduce_last, C62_reduce_max, C62_reduce_max_tie_refuted, C62_reduce_mean, C62_reduce_shape, C62_reduce_sum, C64_bounds, C64_maxout_refuted, C64_normal_init_refuted, C64_shapes, C64_uniform_init, C64_variance, C66_tf_accumulate, C66_tf_arguments_finish_refuted, C66_tf_arguments_refuted, C66_tf_backprop, C71_add_of_wrapped_refuted, C71_key_width_refuted, C71_lstm_odd_refuted, C71_sigmoid_width_refuted, C77_dense_width_refuted, C77_hard_sigmoid, C77_hard_tanh, C77_relu_k.

* `ClassicalDedekindReals.sig_forall_dec`, `ClassicalDedekindReals.sig_not_dec`, `Classical_Prop.classic`, `FunctionalExtensionality.functional_extensionality_dep`: C24_compounding_down, C24_compounding_up, C24_cyclic_triangular, C24_decaying, C24_decaying_zero, C24_slanted_negative_refuted, C24_slanted_short_refuted, C24_slanted_triangular, C24_to_generator, C24_to_generator_errors, C24_warmup_linear, C25_no_evaluation, C25_values, C44_Mish, C44_Sigmoid_partial, C44_Swish_partial, C44_erf_odd, C44_gaussian_pdf, C44_gelu_approx_partial, C44_gelu_approx_refuted, C44_gelu_formula, C44_gelu_refuted, C44_mish, C44_mish_forward, C44_mish_kernels, C44_sigmoid_activation_partial, C44_sigmoid_error, C44_sigmoid_partial, C44_sigmoid_refuted, C44_swish_partial, C44_swish_refuted, C45_MultiSoftmax_gradient, C45_MultiSoftmax_refuted, C45_Softmax, C45_Softmax_errors, C45_differentiates, C45_empty_width, C45_jacobian, C45_order, C45_rows, C45_sequences, C45_sequences_differentiates_partial, C45_sequences_mismatch, C45_sequences_refuted, C45_softmax, C45_softmax_activation, C47_softmax, C56_back_direction, C56_base_backward, C56_base_forward_refuted, C56_base_refuted, C56_bptt, C56_first_step, C56_forward, C56_gates_partial, C56_hidden_weights_refuted, C56_input_gradient_partial, C56_numpy_refuted, C56_one_layer, C56_one_step, C56_wrong_size, C57_cross_entropy, C58_add_mismatch_refuted, C58_chain_fills, C58_chain_width, C58_concat_width_refuted, C58_ready, C58_residual_mismatch_refuted, C58_shape_only, C60_erf, C60_gelu_close, C60_gelu_continuous_refuted, C60_gelu_gradient, C60_same_backward, C60_same_forward, C60_swish_backends_refuted, C60_swish_close, C60_swish_continuous_refuted, C60_swish_gradient, C60_swish_inside, C60_thresholds, C62_attention, C62_attention_clip_refuted, C62_attention_empty_refuted, C62_attention_key_error, C62_attention_no_query, C62_attention_v1, C62_attention_versions, C62_attention_width, C68_bounded, C68_columns, C68_distance, C68_norm, C68_odd_refuted, C68_period, C68_period_refuted, C68_relative, C70_sgd_total, C82_forward, C82_initial_state_refuted, C82_input_gradient, C84_logloss, C84_logloss_perfect, C84_logloss_refuted.

