# Formal model of dreamstream (Rocq / Coq 8.16.1)

Code under study: `/repo` (borgholt/dreamstream, pinned). It is read as text; nothing is run.
The model lives in `rocq/theories`, namespace `Verif`. Every model definition cites the
file and lines it models.

## 1. Conventions of the model

* Python exceptions are values (`res A := Ok a | Err e`, `Py.v`); exception classes are kept apart.
* Integers are unbounded `Z`; list lengths/indices that cannot be negative are `nat`.
* Tensors along one axis are lists. Metadata is a record of parallel lists
  (ids, sos, eos, lengths, optional chunk indices).
* Mutable objects whose aliasing matters (lazy metadata) are modelled with an explicit heap (`Lazy.v`).
  Everywhere else values are immutable and the in-place effect is returned explicitly.
* Model files contain definitions only. `*Spec.v` files contain the vocabulary of the
  property statements and do not import model helpers beyond the data types. `*Proofs.v`
  files contain lemmas. `Properties*.v` contain only the theorems of record, each with
  `Print Assumptions` and an `Example` exhibiting a non-trivial instance.

## 2. Trusted base

* Coq's kernel (and coqchk).
* Axioms: none. `Print Assumptions` says "Closed under the global context" for every theorem of record; the
  command stands below the theorems in every `Properties*.v`. coqchk, which lists the axioms of all loaded
  libraries whether used or not, additionally names seven of the standard library, `Coq.ssr.ssrunder.Under_rel.*`;
  they come with `ZifyBool` (used for `lia`) and no theorem depends on them.
* The reading of the Python code as the model definitions (each cites lines).
* The semantics of torch, numpy and numba primitives as encoded in the model: slicing, negative
  indices, `clip` with min > max gives max, `cumsum`, `where`, `roll`, `split`, `cat`, `conv1d` shape errors,
  Python's `slice.indices`, `range`, `round` (half to even), `zip`, `zip_longest`, stable `sorted`. In `Named.v` these
  are the definitions `t_...` and `torch_...` (likewise in `Gather.v` and `FullIndex.v`), which also say how torch propagates and checks dimension names.
* The convolution kernel is abstract: any function of the list of columns in one window. Floating point
  is abstracted: values are an arbitrary type with a zero; no rounding or reassociation is modelled
  (the kernel is the same function online and offline). Meta.v takes `torch.div`/`ceil` in float32 in
  `_index_length_slice` as exact; F32.v models the rounding (binary32, nearest even) and C60 proves that this is right for
  lengths up to 2^24.

As evidence for the reading, the cases of the repository's own tests are run on the model: `RepoTests.v` has those of
tests/test_tensor.py (115 examples; all of them agree), `RepoTestsData.v` those of tests/data/test_stream_dataset.py with the
same 200 files and all parameters. These are tests of the model, not proofs. Not run: tests/patches/test_conv.py, whose
inputs are too long (its claim is an instance of C26, C27 and C73), and tests/test_stream_metadata.py, which tests
`LazyProxy` on classes of its own. One test passes for the wrong reason: `x[..., 0, ...]` (test_tensor.py 1104) is meant to
take the first feature; torch takes the first time step instead, and the names and metadata are wrong (C59).

### Modelled

| File of /repo/dreamstream | Model |
|---|---|
| tensor.py 97-718 (StreamMetadata) | Meta.v (values), Lazy.v (objects, caches, sharing, lazy construction 35-94) |
| tensor.py 756-910 (StreamTensor), overrides.py 52-163, 259-589, 700-722, 810-859 | Named.v |
| tensor.py 518-538 with float32 division | F32.v |
| tensor.py 336-402 (`__repr__`, `__getitem__`) | MetaIndex.v |
| overrides.py 259-572 (`__getitem__`) with tensors of any rank, any number of lists, None and Ellipsis | FullIndex.v |
| tensor.py 880-885, 910-950 (tensor, decouple, as_stream_tensor, stream_tensor), overrides.py 166-190, 725-733 (quantising, frexp, masked_select) | Build.v |
| overrides.py 592-697, 736-807 (gather, take_along_dim, take, scatter), tensor.py 976-994 | Gather.v; take with an index of any rank: TakeNd.v |
| tensor.py 774-836, 1035-1056 (`__torch_function__`), func_coverage.py | Dispatch.v; Reduce.v (torch functions along and over dimensions) |
| overrides.py 193-256 (conv1d), patches/conv.py | Conv.v, Stack.v (tensors as values), Store.v (tensors on a store, buffers as views), Share.v (metadata objects shared between tensors) |
| patches/general.py, patches/modes.py | Modes.v |
| nn/utils/pad_sequence.py, utils/operations.py, tensor.py 902-908 | Pad.v |
| data/data_objects.py | Data.v (StreamSample), Collector.v (OutputCollector) |
| data/stream_dataset.py | Data.v |
| data/stream_dataset_demo.py | Demo.v |
| random.py | Random.v |
| utils/timing.py 21-119 (exact arithmetic) | Timing.v |
| utils/listloaders.py; doc_scrape/pointwise-ops.py (classification, files) and its output | Lists.v |
| warnings.py, with Python's module warnings; the warnings in tensor.py 807-812 and overrides.py 736-824 | Warn.v |
| examples/wav2letter.py 12-69 (the program: random chunks, random batches, online network, collection) | Program.v |
| data/stream_dataset.py 193-221 with the arithmetic of 205-206 in binary64 | Float64.v |
| tensor.py 35-94, 767-773 and data_objects.py 13-25, 102-106 under pickle and copy.copy | Pickle.v |
| data/stream_dataset.py 442-452, 481-484, 513-589 with torch's DataLoader of one worker | Workers.v |
| data/stream_dataset.py 64-77, nn/utils/pad_sequence.py and tensor.py 902-908 on tensors of any rank | Ragged.v |
| data/stream_dataset.py 481-498 with one worker process for each part, all at the same time | WorkersMany.v |
| overrides.py 193-256 (conv1d), patches/conv.py 13-57, on named tensors with weight, bias and groups | ConvTensor.v |
| nn.Sequential of patched nn.Conv1d and layers on time steps, on named tensors (tensor.py 776-836, patches/conv.py, overrides.py 193-256) | ConvNet.v |
| tensor.py 336-370 (the text of __repr__ of metadata) | Repr.v |
| func_coverage.py 11, 14, 129-140 and overrides.py 40-49: the import and the registrations | Coverage.v |
| `x + conv(x)`: tensor.py 816-836 for two tensors after patches/conv.py 13-57 and overrides.py 193-256 | Residual.v |
| align_to: func_coverage.py 61 through tensor.py 816-836 | AlignTo.v (an Ellipsis or None among the names asked for gives Undefined) |
| examples/wav2letter.py 33-61 and data_objects.py 102-136 on tensors | ProgramTensor.v |
| a data loader in front of the loop of examples/wav2letter.py 54-58 | DataStream.v (the repository has the two parts, no program that joins them) |
| data/stream_dataset.py 420-465, 481-493: arguments for worker processes | LoaderArgs.v |
| overrides.py 476-572, tensor.py 404-440 for Python lists of bool in other dimensions than length | BoolList.v |
| patches/general.py 12-43, patches/modes.py 6-27 for module objects used in several places | ModuleGraph.v |
| tensor.py 807-836 with max_pool1d, patches/general.py 18-43 for nn.MaxPool1d | Pool.v |
| examples/wav2letter.py 37-60 (how the parts are used together) | Pipeline.v |

### Not modelled

Device/pin_memory/CUDA, gradients, autograd, dtype promotion, the audio decoding and
transforms, tqdm, pretty printing (but for the ids in `repr` of metadata, C62), `einops`, jiwer/evaluation code, crashes of workers and timeouts that pass, Python lists of bool along the length dimension and nested sequences in index expressions, anything but
full slices, Ellipsis, lists and tensors after a mask of two or more dimensions (torch versions differ there), `out=`, the web page that doc_scrape reads and the calls with which it tests functions (predicates in Lists.v), measuring of times and rounding of double numbers in utils/timing.py, filters on the text or line of warnings.
`torch.cat` skips empty one-dimensional tensors; this is not modelled.

## 3. Properties: what is modelled and how it is proved

(M) = module, (P) = proof idea. "Refuted part" = the statement in full generality is false of the
code; a `_refuted` theorem gives the witness, and a guarded theorem gives the strongest true version.

| Id | Model | Proof plan |
|----|-------|-----------|
| C01 | Meta.v `index_batch` on int/slice/int list/mask | rows view `rows m`; show rows of result = selection of rows; spec by `nth`. Refuted part: Python lists of bool |
| C02 | Meta.v `index_length` slice step 1 | spec counts selected positions `p < len` by filter; lia + induction. Refuted part: stop < start gives negative lengths |
| C03 | step k | arithmetic of ceil division; refuted with explicit stop, proved for stop omitted |
| C04 | int index | case analysis |
| C05 | list/mask | sorted test by induction, count by induction; refuted part: eos differs from slice; exact characterisation of eos |
| C06 | split_length | telescoping sum of clamps by induction over sections |
| C07 | cat_length | induction; iff characterisation of success |
| C08 | split_length + cat_length | from C06/C07 |
| C09 | split_batch, cat_batch, unbind_batch | firstn/skipn induction |
| C10 | `__eq__` | case analysis; refuted; exact characterisation |
| C11 | Lazy.v caches: op machine | invariant over histories |
| C12 | Lazy.v heap with proxies | refuted (lazy clone); proved once the clone has been touched, by separation invariant |
| C13 | proxy Pending/Ready/Broken | invariant over access histories |
| C14 | drop_empty | filter; refuted part: single survivor raises |
| C15, C16 | Named.v: names, determine_dims, replace_ellipsis, getitem; torch selection semantics | induction on index tuple |
| C17-C21 | narrow, index_select, squeeze, unsqueeze, flatten, permute, transpose | list surgery lemmas; refuted parts for negative dims |
| C22, C23 | split, unbind, cat | from metadata theorems |
| C24, C25 | Dispatch.v: dispatch classes, recouple, default_valid, VALID drops kwargs | case analysis; C25 refuted |
| C26-C28, C31 | Conv.v: pre-hook, conv1d, post-hook on batches; schedule = list of batches | per-stream invariant: emitted = conv of consumed prefix, buffer = unconsumed suffix; streaming lemma `conv (A++X) = conv A ++ conv (skipn .. A ++ X)` |
| C29 | same | progress lemma from invariant |
| C30 | same | invariant on buffer map |
| C32 | same | proved for all-starting batches, refuted for mixed |
| C33 | same, returning effect on the input | refuted; exact characterisation of when input is unchanged |
| C34 | same | refuted; true for batches with no starting row |
| C35 | same | direct |
| C36, C37 | Modes.v: module tree | tree induction; C37 refuted |
| C38, C39 | Collector.v | induction on histories; C39 refuted part: state changed by a rejected chunk |
| C40, C41 | Data.v process_data | arithmetic; C41 refuted (sample carries full audio) |
| C42, C43 | get_streams | round robin partition `i::bs`, zip_longest; C43 refuted parts |
| C44, C45 | partition_by_sum, split | greedy invariant max-min <= bound |
| C46 | make_streams_synchronous | buffer invariant; fuel-free via measure |
| C47 | get_stream_loaders | from C42, C45, C46 |
| C48 | custom_collate | stable sort permutation |
| C49, C50 | Pad.v | list induction |
| C51 | Conv + Pad + Meta + Collector | composition of C06/C49/C27/C38 |
| C52 | Meta.v `index_batch_and_length` | column functions over the mask, induction; refuted parts: length one, padding, empty streams, chunk indices |
| C53 | Named.v, Gather.v, FullIndex.v, Dispatch.v: all operations of C14-C23, gather, take_along_dim, None, integer tensors, masks and element-wise functions, in any order | values that know whether they are data, of which stream and when; each operation is a re-indexing (`AlignProofs.reindex`), a replaced block of dimensions (`AlignBlockProofs.block_aligned`), a position-wise function (`AlignPointProofs.pointwise_aligned`) or a concatenation; induction over the computation. Tensors are values: storage shared by views is not modelled, so an in-place function yields a new value |
| C54 | Gather.v: `gather_with` with torch's gather and take_along_dim as parameters | spec `gathered` (value at p = value at p with one coordinate replaced), `cut_row`; the index pair reduces to C02/C03 slices |
| C55 | Gather.v: `take` (np.unravel_index, dict.fromkeys) | ids via pigeonhole on the distinct batch positions; refutations by the order of the two `del` statements |
| C56 | Gather.v: `scatter`, reduction abstract | spec `scattered`: the elements arriving at a position, each once, in some order; equality of metadata as in C10 |
| C57 | Gather.v: `decouple_recursive` on nested values | induction over nested lists and mappings; relations `stripped`, `found`, `occurs` |
| C58 | FullIndex.v `x_getitem` | equal to `getitem` on its domain; rank count for `C58_accepted` (refine_names fails when names and dimensions differ in number); specs `masked_out`, `touched`, `looked_up`; the mask positions in row-major order |
| C59 | Named.v / FullIndex.v | spec `new_dims`; items before the None are processed as without it; refutations by the position count in `determine_dims_affected_by_indexing` |
| C60 | F32.v: `round_pos` by the nearest multiple of a power of two | rounding is monotone and keeps integers of up to 24 bits, so rounding a quotient never crosses an integer; refutation by a tie rounded to even |
| C61 | MetaIndex.v `index_meta` | the dispatch reduces to C01-C05; an absolute time index is a function of each row, which commutes with any selection of rows |
| C62 | MetaIndex.v `show_ids`, length of `repr` of an id abstract; Repr.v: the text | loop invariant: the counted width covers the ids shown and the next one, so the loop stops before the last |
| C63 | Demo.v `split_datasets` | partitioning as C44; spec `largest_divisor` |
| C64 | Demo.v `demo_streams`, `demo_loader`; chunks of any type | spec `labelled`, `chunks_of`: a function tells which example a chunk belongs to; streams without common examples are `apart`, so merging keeps the order of each |
| C65 | Store.v: Conv.v on a store; buffers are views | the store version agrees with the value version (`agree`) as long as no view shows a tensor written to; views of the caller's tensors arise only in calls that neither prepend nor pad |
| C66 | Random.v: `rand_length` with binary32 product, draws as parameters | rounding does not pass a number with 24 bits (`round_le`) nor, below the middle, the next one (`round_lt`) |
| C67 | Share.v: programs on metadata objects with lazy clones; ShareSpec.v: the same programs on values, and the rule `tag_step` (families of variables with one object, unread views) | invariant `Inv`: variables of one family and no others have one object, objects have different lengths tensors but for unread views; each statement keeps it (`step_ok`); what the rule calls spoilt is (`conv_exact`) |
| C68 | Reduce.v: torch's functions along and over dimensions, called through Dispatch.v | positions combined are exactly those that agree in the other dimensions (`fiber_drop`, `fiber_keep`); necessity of `causal` and `one_by_one` by one-stream and one-step tensors; softmax in rational arithmetic with arbitrary positive weights |
| C69 | Build.v: as_stream_tensor, stream_tensor, decouple, frexp, quantising, masked_select | exact acceptance (`as_stream_tensor_iff`); spec `broadcasts`, `seen`, row-major order `before` |
| C70 | Timing.v: `format_time`, the choice of the number of iterations, the summary; numbers are rational | spec reads the text (`denotes`) and compares with every number of few digits (`closest`); `%g` is decimal expansion by repeated multiplication by ten |
| C71 | Lists.v: directories as lists of files, `glob`, `split`, the classification by predicates on names | spec `occurs`, `begins`, `ends`; the names of the files of two lists never match each other's pattern |
| C72 | Warn.v: filters, versions, registries and suppress_warnings; Gather.v and Named.v for the results | spec `decides`, `play`, `reach`; a registry holds a warning of a class whose action is "default" exactly if it was played since the last change of filters |
| C73 | Program.v on top of Pipeline.v: random numbers are inputs, None says that more are needed | spec `lasting` computes the sizes of chunks behind each convolution; success of every schedule iff no chunk vanishes; `wide` gives a bound, checked for the sizes of Wav2Letter (written down from memory of torchaudio) |
| C74 | Float64.v `chunk_size64`, every operation rounded | relative error of one rounding at most 2^-53, chained by cross-multiplied integer inequalities; refutations by computation |
| C75 | Pickle.v: values as trees, `dumps`, `loads` | PickleSpec.v says what is inside a value; induction over values with nested lists |
| C76 | Workers.v: machine with a step of the worker and a step of the main process, executions are interleavings | invariants over the queues, a measure for the number of steps |
| C77 | Workers.v `new_one_process`, `iterate_here`, `iterate_there` | the loader of Data.v inside the machine of C76 |
| C78 | Dispatch.v `SIGNATURES`, `accepts` (Python's rule for calls) | CallsSpec.v has torch's documented parameters and says what an argument stands for; finitely many numbers of positional arguments, any keywords by inclusion of name lists |
| C79 | Ragged.v `concatenate_ragged`, `pad_tensors` (torch's pad_sequence with the broadcasting of copy_) | RaggedSpec.v: `alike_but`, `stacked`; positions of tensors, no model helper |
| C80 | Ragged.v `pad_chunks_t`, `pad_stream_tensor_t`, `unpad_sequence_t` | RaggedSpec.v: `padded`, `unpad_sel`; names split as pre ++ L :: post; `stream_ok` connects it with the theorems on named tensors, `columns` with C48 and C49 |
| C81 | WorkersMany.v: the machines of C76 together with zip or zip_longest in the main process | WorkersManySpec.v: `round_of`, `ends_at`; invariant: each machine is in a state it can reach alone (C76), the generators that are left give the rounds that are left |
| C82 | Data.v make_streams_synchronous, loader | DataSpec.v `full_groups`: where files start, n start or all files have started; extra field of the invariant of C46 |
| C83 | ConvTensor.v: conv1d and hooks on the tensors of Named.v | ConvTensorSpec.v `convolution_of`: every output element written out; each step of ConvTensor.v agrees with Conv.v on columns (same result or same error), then C26 / C29 |
| C84 | ConvNet.v on ConvTensor.v: network call, run, plain network | ConvNetSpec.v `network_value`: composition of written-out convolutions; calls agree with Stack.v on columns (outputs stay `described`), then C27; `network_value` is functional, so streaming equals the plain network; StackLiveProofs.v: a stack succeeds exactly if every batch keeps some column behind every convolution (`alive`), and does if every chunk is long enough for the layers without padding (`unpadded_width`), because the outputs of joined columns are at least those of the parts |
| C85 | Coverage.v: state after the import, registrations | the sets are written out as conditions on a function; registrations change only the dict (induction over their list); the missing overrides by comparing the lists |
| C86 | Residual.v: residual_call, residual_run | ResidualSpec.v (column sums, the unmodified residual connection); the convolution part is C31's run; metadata equality forces equal lengths; the number of outputs due at the end of a cut stream exceeds the number of columns of its last chunk |
| C87 | AlignTo.v: align_to | AlignToSpec.v (same place under the names); refusals; stream_ok of NamedSpec.v kept; aligning back |
| C88 | ProgramTensor.v on top of Ragged.v, AlignTo.v, Named.v, ConvNet.v | every step of tprogram related to the step of Program.v on columns (`agree`), then C73; row_of and net_shapes in ProgramTensorSpec.v |
| C89 | Conv.v, Pad.v, Collector.v, Program.v: presence of chunk indices | KeepSpec.v (waiting columns, keeps, carried, agreeing); exact for one convolution, composed through the stack, and the collector in both directions |
| C90 | DataStream.v on top of Data.v, Stack.v, Collector.v | DataStreamSpec.v (own_chunk, file_output); loader of C47, network of C89; refuted for files of several chunks and for overlapping batches |
| C91 | LoaderArgs.v (arguments of __init__ to the DataLoaders) | LoaderArgsSpec.v (worker_count, startable) |
| C92 | BoolList.v (x[...] with a Python list of bool), compared with Named.v `getitem` for BoolTensors | BoolListSpec.v (bool_list_at, renamed) |
| C93 | ModuleGraph.v (objects with identities, a store of what patching added), the object graph given by its unfolding | ModuleGraphSpec.v (way, one_object); C93 refuted for shared modules |
| C94 | Pool.v (a pooling layer under the default rule), on rows of columns | PoolSpec.v (pooled, fits_windows) |

## 4. Findings

Every finding is a theorem `..._refuted`; some are universal ("always fails"), the others give a concrete witness.

Metadata
* C01 a Python list of bool as batch index mixes rows. C02 a crossed slice gives negative lengths. C03 an explicit stop is
  ignored for steps > 1. C05 a list of positions can lose the end flag that the same slice keeps. C06 the end flag of a
  stream with no data left is in no piece.
* C10, C24 `__eq__` compares chunk indices with lengths: an object can differ from itself and equal a different one.
* C11, C12 slices, clones and copies share tensors (a lazy clone until its first use, copy.copy for ever), so an in-place
  change of one shows up in the other or leaves its cache stale. C13 the lazy constructor does not raise.
* C14 drop_empty fails whenever one of several streams is left. C52 masks: wrong end flags and lengths for streams of length
  one, for selected padding and for empty streams; with chunk indices dropping a stream always fails.
* C60 a stream of more than 2^24 steps (17.5 minutes at 16 kHz) can lose its last step in the metadata of x[::2].
* C61 meta[(i,)] and meta[i, j, k] return None unless all are ints; negative and strided time indices mean different steps before
  and after a selection of streams. C62 repr fails for a single stream with an id of more than 80 characters; the last id of a shortened text is quoted twice.

Named tensors
* C15 `x[()]` fails. C16, C17 negative time positions count from the longest selected stream. C18 index_select with a
  negative dim leaves the metadata as they were.
* C19 unsqueeze with a negative dim takes the name of another dimension; squeeze() fails with two unnamed dimensions, one of
  size one. C20 flatten fails for end = -1 (its default) and for unnamed dimensions.
* C21, C53 torch.transpose and adjoint exchange data but not names; x.permute((1, 0)) fails. C53 a plain
  operand with more rows than the batch, or an unlisted function that changes sizes (max_pool1d), gives a StreamTensor whose
  metadata do not fit. C23 chunks out of order are
  concatenated without complaint; along other dimensions the last operand is not compared.
* C54 take_along_dim with an index broadcast along batch or length gives too few streams or too short lengths; a
  StreamTensor as index, and a gather that keeps no stream, always fail. C55 take: wrong lengths; elements of one step of
  one stream fail or get the wrong name; fails without batch or length dimension. C56 scatter along a negative batch or
  length dimension mixes streams and keeps the metadata; with chunk indices the result is never a StreamTensor; different
  metadata fail instead of giving a plain tensor; a plain input gets metadata of other sizes.
* C58 a mask over an unnamed dimension always fails. After a mask over batch and another dimension the metadata have one row per
  touched stream, not per data row, and no dimension is named "B". C59 None before other items, and Ellipsis apart from each
  other, make names and metadata describe other positions than the data.

Dispatch
* C24 in-place functions do not compare metadata, streams in list arguments are not seen, tuple results have no
  metadata. C25 functions registered as valid lose every keyword; some documented call forms are always refused.
* C68 sums, means and the like over the batch or length dimension are accepted and keep metadata that no longer fit; softmax, listed as
  valid, gives padding weight along the length dimension.
* C69 stream tensors can be made with any number of streams of any length for the same data; masked_select(x, x > 0) always fails and
  x.masked_select(mask) returns metadata that do not fit.

Convolution and modes
* C26, C27, C29, C32, C34, C35 strides wider than the kernel, chunks that vanish, a restarted stream in a mixed batch, spare
  padding in a starting batch, and empty chunks break the equality with the offline result or lose flags. C33 the input's
  metadata and even its data can be changed.
* C65 after a first call without padding the buffer is a view of the caller's tensor: a caller who reads the next chunk into
  the same tensor gets wrong output. A buffer of one column keeps the whole input tensor alive.
* C36 subclasses of Conv1d are patched but not equipped; a module added later breaks mode switching. C37 a module patched
  twice never works online.
* C67 networks with branches: the first call of a module changes the metadata of its input when all streams start, so the next branch
  silently computes something else; clone() does not help; a failed call leaves padded lengths behind.
  With a kernel of one column and padding the rows of the caller's own tensor that start are rolled in place.

Data
* C38, C39 the collector skips empty first and last chunks; a rejected chunk closes its id. C41 every sample carries the whole
  audio. C43, C46, C47 too few files, two workers, empty streams and datasets, and the default collate function fail or lose
  data. C45 bounds hold for estimated, not true, numbers of chunks. C49 padding drops chunk indices. C50 max_len = 0 counts as
  not given.
  C63 names of demo workers repeat from 27 on; 53 fail. C64 drop_last of the demo loader leaves smaller batches.
  C66 a random stream tensor never has a stream of full length; with one step all streams are empty.

Utilities
* C70 times below a nanosecond and from 10^precision seconds are shown with more characters than documented; the warning about unreliable times is
  also given when all times are zero.
* C71 an empty list of functions, or a file with a final line end, makes the import fail; of two files for one list the first that the file system
  names is taken; the script that writes the lists imports them first and refuses to run if they exist; on paths with backslashes nothing is found.
* C72 suppress_warnings(False) replaces the program's own filter (`-W error` is lost) and makes warnings of other libraries appear again; warnings name a
  line of the package, so a second place in a program that leaves the world of streams is not reported; argmax and others leave it without a word.
* C73 the example program fails or silently loses the last columns of an output if a last chunk is short (below 115 samples is not safe for Wav2Letter; one
  sample fails); its random chunk sizes do not exclude that.
* C74 durations of half a frame: 0.35 s at 22050 Hz are 7717.5 frames, rounded to 7717 instead of 7718; the float 0.1 at 25 Hz gives 2 frames where its exact
  product rounds to 3.
* C75 a StreamTensor cannot be pickled (RuntimeError with names; AttributeError without, because torch turns the tensor in its state into a StreamTensor without
  metadata); metadata can be saved but not loaded: the lazy proxy is asked for `__setstate__` before it has attributes (KeyError, or TypeError once used).
* C76 an item that cannot be pickled is lost; the iteration ends silently or hangs.
* C77 `MultiStreamOneProcessDataLoader` with a worker and StreamTensor batches delivers nothing; `drop_last=True` is always refused by torch; a list of datasets with
  a worker, `timeout > 0` and `persistent_workers` with a single dataset always fail.
* C78 nine overrides refuse or misread documented calls; worst `x.scatter_reduce_(d, index, src, "sum")`, where `src` is taken for `reduce`.
* C79 `concatenate_ragged`: after a stereo file, a mono file is silently copied into both channels; with the mono file first the batch is a RuntimeError. dim=-3 on tensors of rank 2 is accepted.
* C80 `pad_stream_tensor` takes the size of the tensor for its length, so `unbind` followed by `pad_stream_tensor` turns padding into data; a stream whose dimensions are in another order than those of the first is misread.
* C82 with several workers groups can stay smaller than batch_size for the whole run: the length of the first batch is taken for it.
* C83 `torch.conv1d(x, w)` with its documented int defaults raises TypeError for a StreamTensor (`dilation[0]`); (B, L, F) tensors are silently convolved along F; nan in padded columns survives `output *= mask`.
* C84 a layer that maps zero to something else (sigmoid, exp, batch norm with shift) in front of a padded convolution: the columns after the end of a shorter row are no longer zero and enter the output of that row.
* C85 SUPPORTED_FUNCTIONS is made when no override is registered yet: 41 of the 42 functions with overrides (torch.cat, torch.split, …) are missing from it and are listed in UNSUPPORTED_FUNCTIONS.
* C86 `x + conv(x)` with padding adds, in the middle of a stream, the convolution of `padding` columns earlier without an error; the last chunk of a cut stream always raises one.
* C88 with the sizes of Wav2Letter a sequence of 80046 samples and draws within the range of the program make the program on tensors raise (as C73).
* C89/C90 pad_stream_tensor in the pre-hook of convolutions (patches/conv.py 36-40) drops the chunk indices of a batch whose rows have buffers of different lengths, for example when one stream starts while another goes on; an OutputCollector that has a chunk of the stream with index then raises ValueError in cat_length (tensor.py 629-636). A loader with overlapping batches makes such batches.
* C90 as every sample carries the whole audio (C41), a network behind a loader gets the first columns of a file for every chunk; the collected output has the right length and flags, and wrong values, without an exception.
* C91 stream_dataset.py 449 looks at the argument `num_workers`, not at `self.num_workers`: with a list of datasets, which always has workers, `prefetch_factor` is lost without an exception. It is also ignored without workers, though torch refuses it; a negative num_workers starts one worker.
* C92 tensor.py 434: x[[True, True]] on the batch dimension succeeds and gives every stream the id of the second stream; with a False among the values it raises ValueError, for a batch of one stream IndexError.
* C04, C05 metadata indexed directly with steps before the first one are not refused: the steps count as real data in every row.
* C52 tensor.py 500: a mask of one row for several streams works without chunk indices and raises IndexError with them.
* C55 take: an index tensor of two dimensions, which torch accepts, always raises TypeError; negative indices always raise ValueError.
* C93 general.py 12-15, conv.py 60-73: nn.Module.apply visits an object once for every way that leads to it, so a convolution shared by two blocks gets its hooks twice and never works online; a refused patch leaves its hooks on the modules visited before, so patching a supported part afterwards breaks it; a convolution applied twice in one forward overwrites its own buffers.
* C94 general.py 28-41, tensor.py 816-836: patch accepts pooling layers, which keep no columns between chunks and whose output carries the lengths of the input; a patched convolution behind such a layer then keeps no columns for the next chunk.
