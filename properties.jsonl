{"id": "C01", "title": "Batch indexing moves whole metadata rows", "statement": "Indexing StreamMetadata along the batch dimension with an int, a slice, a list/1-D tensor of ints or a 1-D BoolTensor returns exactly the rows (id, sos, eos, length, chunk index) at the selected positions, in selection order; the fields of one row are never mixed with those of another and the result always passes the constructor's length check. Out-of-range positions and masks of the wrong size are rejected.", "quantifier": "every metadata object of any batch size, every int/slice/int list/mask (negative, out of range, empty, repeated)", "why_tests_cant": "the index space (negative/None/out of range starts, stops, steps, repeated positions) times all batch sizes is infinite; the tests use one batch of three rows", "anchors": ["dreamstream/tensor.py::StreamMetadata.index_batch", "dreamstream/tensor.py::StreamMetadata.index"]}
{"id": "C02", "title": "Contiguous length slices keep lengths, sos and eos exact", "statement": "Slicing along length with meta[:, a:b] (any a, b, None or negative, that do not cross over) gives each non-empty row a length equal to the number of selected positions that hold real data, keeps sos exactly if position 0 is selected and keeps eos exactly if the row's last real position is selected. Lengths stay between 0 and the size of the slice.", "quantifier": "every metadata object, every start/stop pair, every row", "why_tests_cant": "all start/stop/length combinations including None, negative and out of range values; tests check six slices of one 3x3 batch", "anchors": ["dreamstream/tensor.py::StreamMetadata._index_length_slice", "dreamstream/utils/numba.py::update_eos_from_slice"]}
{"id": "C03", "title": "Strided length slices count the selected real positions", "statement": "Slicing along length with a step k > 1 gives each row a length equal to the number of selected positions that hold real data and keeps sos/eos as for contiguous slices (eos iff a selected position is at or beyond the last real one).", "quantifier": "every metadata object, every start, stop and positive step", "why_tests_cant": "infinitely many (start, stop, step, length) tuples; tests try only ::2 without a stop", "anchors": ["dreamstream/tensor.py::StreamMetadata._index_length_slice"]}
{"id": "C04", "title": "Length index by integer selects one time step", "statement": "Indexing along length with an integer (negative counts from the longest row) gives each row length 1 if the step holds real data and 0 if it is padding, keeps sos exactly for step 0 and keeps eos exactly if the step is the row's last real step or lies in the padding after it.", "quantifier": "every metadata object and every integer", "why_tests_cant": "all integers times all length vectors", "anchors": ["dreamstream/tensor.py::StreamMetadata._index_length_int", "dreamstream/utils/numba.py::update_eos_from_integer"]}
{"id": "C05", "title": "Length index by list or mask is chronological and counts real steps", "statement": "Indexing along length with a list, 1-D int tensor or 1-D BoolTensor is rejected unless the positions are in ascending order; otherwise each row's length is the number of listed positions holding real data, sos survives exactly if position 0 is listed, and selecting the same positions with a slice gives the same metadata.", "quantifier": "every metadata object, every list of positions, every mask", "why_tests_cant": "all lists of all lengths; equality with the slice form is a two-path property no fixed example covers", "anchors": ["dreamstream/tensor.py::StreamMetadata._index_length_list", "dreamstream/tensor.py::StreamMetadata._index_length_1d_booltensor", "dreamstream/utils/numba.py::is_sorted_ascending", "dreamstream/utils/numba.py::minmax", "dreamstream/utils/numba.py::update_lengths_from_list_of_indices", "dreamstream/utils/numba.py::make_indices_positive_"]}
{"id": "C06", "title": "Splitting along length is a partition of every sequence", "statement": "Splitting metadata along length (fixed chunk size or explicit sections covering the longest row) yields pieces whose lengths add up to the original length in every row; sos is carried only by the first non-empty piece, and for every non-empty row eos is carried by exactly one piece: the one that contains its last real step.", "quantifier": "every metadata object, every chunk size >= 1, every list of non-negative sections covering the longest row, every row", "why_tests_cant": "all chunkings of all ragged batches", "anchors": ["dreamstream/tensor.py::StreamMetadata.split_length", "dreamstream/tensor.py::StreamMetadata.split"]}
{"id": "C07", "title": "Length concatenation accepts only chronological pieces of the same streams", "statement": "Concatenating metadata along length succeeds only if all pieces have the same ids in the same order, only the first may carry sos and only the last may carry eos (and chunk indices are present in all or none); the result has the first piece's sos, the last piece's eos and the summed lengths.", "quantifier": "every list of metadata objects", "why_tests_cant": "acceptance has to be decided for every list of pieces of every batch size", "anchors": ["dreamstream/tensor.py::StreamMetadata.cat_length"]}
{"id": "C08", "title": "Split then concatenate along length is the identity", "statement": "For a batch whose rows all have the same positive length, splitting along length and concatenating the pieces again returns the original metadata; for a batch in which a shorter row carries eos, concatenation refuses instead of silently losing the end of stream.", "quantifier": "every metadata object with equal row lengths, every chunk size / section list", "why_tests_cant": "round trip over all chunkings", "anchors": ["dreamstream/tensor.py::StreamMetadata.split_length", "dreamstream/tensor.py::StreamMetadata.cat_length"]}
{"id": "C09", "title": "Batch split, unbind and concatenation are inverse row operations", "statement": "Splitting metadata along batch yields consecutive groups of rows; unbinding yields one row each; concatenating along batch appends the rows in order; splitting and concatenating again is the identity (also for chunk indices).", "quantifier": "every metadata object, every split size >= 1 / section list with the right sum", "why_tests_cant": "round trip over all batch sizes and splits", "anchors": ["dreamstream/tensor.py::StreamMetadata.split_batch", "dreamstream/tensor.py::StreamMetadata.cat_batch", "dreamstream/tensor.py::StreamMetadata.unbind_batch"]}
{"id": "C10", "title": "Metadata equality decides equality", "statement": "meta1 == meta2 returns True exactly if ids, sos, eos, lengths and chunk indices agree, False otherwise, and never raises.", "quantifier": "every pair of metadata objects", "why_tests_cant": "pairs of arbitrary objects; the defect appears only for unequal pairs or when chunk indices are present", "anchors": ["dreamstream/tensor.py::StreamMetadata.__eq__"]}
{"id": "C11", "title": "Cached summary properties are never stale", "statement": "After any sequence of reads and of assignments through the public setters (lengths, sos, eos, starting_lengths, ending_lengths, including augmented assignment), min_length, max_length, any/all_starting/ending always equal the values recomputed from the current lengths, sos and eos.", "quantifier": "every history of reads and writes on one metadata object", "why_tests_cant": "cache invalidation bugs depend on the order of operations in an unbounded history", "anchors": ["dreamstream/tensor.py::StreamMetadata._update_lengths", "dreamstream/tensor.py::StreamMetadata._update_logicals"]}
{"id": "C12", "title": "A cloned metadata object is an independent snapshot", "statement": "meta.clone() (deepcopy) has the values the original had at the time of the call, and no later change of the original's lengths, sos or eos is visible in the clone, nor the other way round.", "quantifier": "every history of clone, read and in-place update operations", "why_tests_cant": "aliasing defects depend on the interleaving of lazy initialisation and mutation", "anchors": ["dreamstream/tensor.py::LazyProxy", "dreamstream/tensor.py::StreamMetadata.__deepcopy__", "dreamstream/tensor.py::StreamMetadata.__copy__", "dreamstream/tensor.py::StreamMetadata.clone"]}
{"id": "C13", "title": "Inconsistent metadata is rejected", "statement": "Creating metadata whose ids, sos, eos and lengths differ in number raises ValueError, and no operation can ever read attributes of such an object; accepted metadata always has equally many ids, sos, eos and lengths.", "quantifier": "every argument tuple and every sequence of accesses after construction", "why_tests_cant": "the error is deferred by lazy construction, so it depends on the access history", "anchors": ["dreamstream/tensor.py::LazyProxy", "dreamstream/tensor.py::StreamMetadata.__init__"]}
{"id": "C14", "title": "Dropping empty streams keeps exactly the non-empty ones", "statement": "drop_empty on metadata keeps exactly the rows with positive length, in order; drop_empty on a StreamTensor returns None if all streams are empty and otherwise exactly the non-empty rows.", "quantifier": "every batch and every vector of lengths", "why_tests_cant": "all subsets of empty rows", "anchors": ["dreamstream/tensor.py::StreamMetadata.drop_empty", "dreamstream/tensor.py::StreamTensor.drop_empty"]}
{"id": "C15", "title": "Indexing keeps dimension names attached to the right dimensions", "statement": "For every index expression made of ints, slices, at most one Ellipsis and at most one list/1-D tensor, x[idx] names every remaining dimension exactly as it was named in x, in order.", "quantifier": "every number of dimensions and names, every such index tuple", "why_tests_cant": "all index tuples over all ranks", "anchors": ["dreamstream/overrides.py::determine_dims_affected_by_indexing", "dreamstream/overrides.py::replace_ellipsis", "dreamstream/overrides.py::__getitem__"]}
{"id": "C16", "title": "Indexing keeps metadata in step with the data", "statement": "For the same index expressions the metadata of x[idx] describes exactly the selected rows: the ids at the batch positions torch selected, each with the number of selected real time steps.", "quantifier": "every tensor with a batch and a length dimension (in any position), every such index tuple", "why_tests_cant": "needs agreement between torch's index semantics and two separate code paths for all index tuples", "anchors": ["dreamstream/overrides.py::__getitem__", "dreamstream/tensor.py::StreamMetadata.index"]}
{"id": "C17", "title": "narrow keeps data and metadata in step", "statement": "x.narrow(dim, start, length) describes exactly the rows / time steps torch narrows to, for batch, length and other dimensions, negative dim included.", "quantifier": "every tensor, dim, start, length accepted by torch", "why_tests_cant": "all (dim,start,length) triples", "anchors": ["dreamstream/overrides.py::narrow"]}
{"id": "C18", "title": "index_select keeps data and metadata in step", "statement": "x.index_select(dim, index) describes exactly the selected rows / time steps, for every dim torch accepts.", "quantifier": "every tensor, dim (negative included), index vector", "why_tests_cant": "all dims and index vectors", "anchors": ["dreamstream/overrides.py::index_select"]}
{"id": "C19", "title": "squeeze and unsqueeze keep names on the right dimensions", "statement": "x.unsqueeze(d) inserts an unnamed dimension where torch inserts it and x.squeeze(d) / x.squeeze() removes exactly the names of the dimensions torch removes, for every valid d including negative ones.", "quantifier": "every rank, names, sizes and d", "why_tests_cant": "all ranks and dims", "anchors": ["dreamstream/overrides.py::unqsqueeze", "dreamstream/overrides.py::squeeze"]}
{"id": "C20", "title": "flatten joins exactly the names of the flattened dimensions or falls back", "statement": "x.flatten(start, end) returns a plain tensor exactly if the batch or length dimension is among the flattened ones, and otherwise a StreamTensor with unchanged metadata in which the flattened names are joined and all others keep their place, for every start/end torch accepts, defaults included.", "quantifier": "every rank, names, start and end", "why_tests_cant": "all ranks and ranges, negative ends", "anchors": ["dreamstream/overrides.py::flatten"]}
{"id": "C21", "title": "permute and transpose carry names with their dimensions", "statement": "After permute, T, torch.transpose or Tensor.transpose every dimension still carries its own name and metadata is unchanged.", "quantifier": "every rank and permutation", "why_tests_cant": "all permutations of all ranks", "anchors": ["dreamstream/overrides.py::permute", "dreamstream/overrides.py::tensor_permute", "dreamstream/tensor.py::StreamTensor.T", "dreamstream/func_coverage.py::RECOUPLE_FUNCTIONS"]}
{"id": "C22", "title": "Splitting and unbinding StreamTensors keeps data and metadata aligned", "statement": "x.split(k, dim) and x.unbind(dim) return pieces in which the j-th piece's metadata describes the j-th piece's data (rows for the batch dimension, time steps for the length dimension, unchanged otherwise), no real data is lost, and unbinding along length is refused.", "quantifier": "every tensor, dim and split size", "why_tests_cant": "all shapes and split sizes", "anchors": ["dreamstream/overrides.py::split", "dreamstream/overrides.py::unbind"]}
{"id": "C23", "title": "torch.cat on StreamTensors combines streams or refuses", "statement": "torch.cat along batch appends rows and refuses to mix plain tensors in; along length it appends the real data of each stream and refuses if padding would end up inside a stream or if pieces are out of order; along any other dimension it requires equal metadata.", "quantifier": "every list of tensors and every dim", "why_tests_cant": "all lists of operands", "anchors": ["dreamstream/overrides.py::cat"]}
{"id": "C24", "title": "Element-wise functions preserve metadata or refuse", "statement": "A torch function handled by the default or recoupling rule returns the common metadata and names of its StreamTensor arguments, and raises if they disagree; results never carry the metadata of only one of several different streams.", "quantifier": "every function of the registered sets, every argument list", "why_tests_cant": "all argument lists; unequal metadata in any position", "anchors": ["dreamstream/tensor.py::recouple", "dreamstream/tensor.py::StreamTensor.default_valid", "dreamstream/tensor.py::StreamTensor.__torch_function__", "dreamstream/tensor.py::decouple", "dreamstream/tensor.py::inplace_recouple"]}
{"id": "C25", "title": "Dispatch honours all arguments of the called function", "statement": "Calling a torch function on a StreamTensor passes every positional and keyword argument on to torch, whichever handling class the function belongs to.", "quantifier": "every function, every argument and keyword list", "why_tests_cant": "all functions times all keyword combinations", "anchors": ["dreamstream/tensor.py::StreamTensor.__torch_function__", "dreamstream/func_coverage.py::VALID_FUNCTIONS"]}
{"id": "C26", "title": "Streaming convolution equals offline convolution", "statement": "For a patched Conv1d in online mode with stride <= kernel width, feeding sequences in chunks - cut anywhere, batched with any other streams in any order, with zero-filled right padding - and concatenating each stream's output chunks gives exactly the output of the offline module on the whole sequence, whenever all calls succeed.", "quantifier": "every kernel size, dilation, stride <= kernel width, padding, every set of sequences, every chunking into pieces (non-empty at the ends), every batching schedule", "why_tests_cant": "the space of chunkings and batch schedules is infinite; the test samples one random schedule", "anchors": ["dreamstream/patches/conv.py::conv_1d_pre_hook", "dreamstream/patches/conv.py::conv_1d_post_hook", "dreamstream/overrides.py::conv1d", "tests/patches/test_conv.py::TestConvs.test_equivalence"]}
{"id": "C27", "title": "Streaming through a stack of layers equals offline processing", "statement": "The same equivalence holds for any sequential stack of patched convolutions and zero-preserving element-wise layers, whenever all calls succeed and no stream's first or last chunk shrinks to length zero between layers.", "quantifier": "every finite stack of layers, every chunking and schedule", "why_tests_cant": "stack depth, chunkings and schedules are unbounded", "anchors": ["dreamstream/patches/conv.py::conv_1d_pre_hook", "dreamstream/overrides.py::conv1d", "dreamstream/patches/general.py::patch"]}
{"id": "C28", "title": "Streaming output is causal and final", "statement": "At every moment the output emitted so far for a stream is a prefix of its offline output: nothing is retracted, and it never depends on input not yet received or on how the input received so far was chunked.", "quantifier": "every point of every schedule", "why_tests_cant": "every prefix of every schedule", "anchors": ["dreamstream/patches/conv.py::conv_1d_post_hook", "dreamstream/overrides.py::conv1d"]}
{"id": "C29", "title": "Streaming never fails on well-formed input", "statement": "With stride < kernel width, and in every batch at least one stream whose buffered plus new data (plus padding) spans the kernel, every online call succeeds and keeps the batch's ids and flags.", "quantifier": "every protocol-conforming schedule", "why_tests_cant": "absence of errors must hold for every schedule", "anchors": ["dreamstream/patches/conv.py::conv_1d_pre_hook", "dreamstream/overrides.py::conv1d"]}
{"id": "C30", "title": "Streaming state is bounded and released", "statement": "After every call a patched convolution holds at most kernel width - 1 frames for each running stream and none for a stream that has ended or never appeared.", "quantifier": "every schedule", "why_tests_cant": "leaks show only over unbounded histories", "anchors": ["dreamstream/patches/conv.py::conv_1d_post_hook", "dreamstream/overrides.py::conv1d"]}
{"id": "C31", "title": "Streams do not influence each other", "statement": "The output and state of a stream depend only on its own chunks: batching it with different streams, in different row orders, or alone gives the same output.", "quantifier": "every two schedules that agree on one stream's chunks", "why_tests_cant": "all pairs of schedules", "anchors": ["dreamstream/patches/conv.py::conv_1d_pre_hook", "dreamstream/overrides.py::conv1d", "dreamstream/data/data_objects.py::OutputCollector"]}
{"id": "C32", "title": "A start-of-stream chunk begins a fresh stream", "statement": "A chunk marked sos is processed as the beginning of a new stream, whatever earlier (aborted) streams with the same id left behind.", "quantifier": "every module state and every batch containing a starting chunk", "why_tests_cant": "depends on leftover state of arbitrary histories", "anchors": ["dreamstream/patches/conv.py::conv_1d_pre_hook"]}
{"id": "C33", "title": "Calling a module does not alter its input", "statement": "After y = conv(x) in online mode, x still has the metadata and data it had before, so x can be used again.", "quantifier": "every input and module state", "why_tests_cant": "aliasing depends on flags and buffer state", "anchors": ["dreamstream/overrides.py::conv1d", "dreamstream/patches/conv.py::conv_1d_pre_hook"]}
{"id": "C34", "title": "Spare padding in the input tensor is harmless", "statement": "The output for a stream does not depend on how many extra zero-padded frames the batch tensor has beyond the longest stream.", "quantifier": "every input batch and amount of extra padding", "why_tests_cant": "all padding amounts and flag combinations", "anchors": ["dreamstream/overrides.py::conv1d"]}
{"id": "C35", "title": "Convolution output is zero outside the valid region", "statement": "In every output batch each row is zero at and beyond its length, its length is the number of kernel positions that fit, and ids, sos and eos are those of the input.", "quantifier": "every successful call", "why_tests_cant": "all shapes", "anchors": ["dreamstream/overrides.py::conv1d", "dreamstream/utils/operations.py::sequence_mask"]}
{"id": "C36", "title": "Online/offline behaviour matrix", "statement": "After online(mode) every module of the tree is in that mode; a patched convolution rejects StreamTensors offline and plain tensors online, and is the unmodified convolution for plain tensors offline.", "quantifier": "every module tree, every sequence of mode switches", "why_tests_cant": "all trees and histories", "anchors": ["dreamstream/patches/modes.py::online", "dreamstream/patches/modes.py::offline", "dreamstream/patches/conv.py::conv_1d_pre_hook", "dreamstream/patches/general.py::patch_module"]}
{"id": "C37", "title": "Patching twice is harmless", "statement": "Applying patch to an already patched module leaves its streaming behaviour unchanged.", "quantifier": "every module and number of applications", "why_tests_cant": "behavioural equivalence over all inputs", "anchors": ["dreamstream/patches/general.py::patch_module", "dreamstream/patches/conv.py::patch_conv_1d"]}
{"id": "C38", "title": "OutputCollector reassembles every stream", "statement": "After any interleaving of conforming non-empty chunks of any number of streams, the collector maps each id to the concatenation of its chunks in order, with sos set from the first and eos from the last chunk; streams never mix.", "quantifier": "every interleaving of every set of chunked streams, batched arbitrarily", "why_tests_cant": "all interleavings", "anchors": ["dreamstream/data/data_objects.py::OutputCollector.update", "dreamstream/data/data_objects.py::OutputCollector._update_unary"]}
{"id": "C39", "title": "OutputCollector rejects protocol violations", "statement": "A chunk for a closed id, a second starting chunk for an open id and a non-starting chunk for an unknown id are rejected with ValueError, and a rejected chunk leaves the collector unchanged.", "quantifier": "every collector state and every chunk", "why_tests_cant": "all reachable states", "anchors": ["dreamstream/data/data_objects.py::OutputCollector._update_unary"]}
{"id": "C40", "title": "A file's chunks describe the whole file once", "statement": "Iterating a file yields ceil(L / chunk_size) samples whose lengths are positive, at most chunk_size and add up to L; chunk indices run 0..n-1, exactly the first has sos and exactly the last has eos.", "quantifier": "every audio length, sample rate, chunk duration and resampling transform", "why_tests_cant": "all lengths and chunk sizes", "anchors": ["dreamstream/data/stream_dataset.py::AudioStreamDataset.process_data"]}
{"id": "C41", "title": "A sample carries its chunk of the audio", "statement": "The data of the i-th sample of a file is the i-th chunk of the (transformed) audio; concatenating the data of all samples gives the audio back.", "quantifier": "every file", "why_tests_cant": "all audio contents and chunk sizes", "anchors": ["dreamstream/data/stream_dataset.py::AudioStreamDataset.process_data"]}
{"id": "C42", "title": "Dataset iteration delivers every chunk exactly once, in order, without mixing a file with itself", "statement": "Iterating a dataset without drop_last yields batches of at most batch_size samples from pairwise different files; overall each chunk of each file occurs exactly once and each file's chunks occur in order.", "quantifier": "every file list (of distinct files), batch size and shuffle outcome", "why_tests_cant": "all file lists, lengths and batch sizes", "anchors": ["dreamstream/data/stream_dataset.py::AudioStreamDataset.get_streams", "dreamstream/data/stream_dataset.py::AudioStreamDataset.get_stream"]}
{"id": "C43", "title": "drop_last: full batches only and every started file ends", "statement": "With drop_last every batch has exactly batch_size samples and every file that appears is started and also ended (its last delivered sample has eos); an iteration with too few files yields nothing rather than failing.", "quantifier": "every file list, batch size, number of workers", "why_tests_cant": "all file length distributions and worker counts", "anchors": ["dreamstream/data/stream_dataset.py::AudioStreamDataset.force_is_last_on_last_batch", "dreamstream/data/stream_dataset.py::AudioStreamDataset.get_streams", "dreamstream/data/stream_dataset.py::MultiStreamDataLoader.get_stream_loaders"]}
{"id": "C44", "title": "partition_by_sum is a balanced partition", "statement": "partition_by_sum assigns every index to exactly one partition, returns the corresponding values, and for non-negative values any two partition sums differ by at most the largest value.", "quantifier": "every list of values, number of partitions >= 1, every processing order (sorted, shuffled or as given)", "why_tests_cant": "optimisation bound over all inputs", "anchors": ["dreamstream/data/stream_dataset.py::partition_by_sum"]}
{"id": "C45", "title": "Splitting a dataset among workers loses and duplicates nothing", "statement": "split(num_workers, batch_size) raises ValueError unless num_workers > 0 divides batch_size; otherwise it returns num_workers datasets that together contain every file exactly once, whose batch sizes add up to batch_size and whose numbers of chunks differ by at most the longest file's.", "quantifier": "every file list, worker count and batch size", "why_tests_cant": "all file lists and worker counts", "anchors": ["dreamstream/data/stream_dataset.py::AudioStreamDataset.split"]}
{"id": "C46", "title": "Non-overlapping batches start and end files in groups", "statement": "make_streams_synchronous delivers every sample of a well-formed stream exactly once, each file's in order, never two of one file in a batch, at most batch_size per batch; in every batch either all samples start their file or none does, and new files start only after all files of the previous group have ended. It terminates and never raises on well-formed non-empty input.", "quantifier": "every well-formed finite stream of batches", "why_tests_cant": "scheduling property over all interleavings", "anchors": ["dreamstream/data/stream_dataset.py::make_streams_synchronous", "dreamstream/data/stream_dataset.py::continue_buffering"]}
{"id": "C47", "title": "The multi-worker loader delivers the whole dataset", "statement": "Iterating MultiStreamDataLoader (drop_last=False), with any number of workers and with or without overlapping batches, delivers every chunk of every file exactly once, each file's chunks in order, in batches of at most batch_size samples from different files.", "quantifier": "every dataset, worker count, batch size, both batching modes", "why_tests_cant": "all datasets and worker counts", "anchors": ["dreamstream/data/stream_dataset.py::MultiStreamDataLoader.get_stream_loaders"]}
{"id": "C48", "title": "Collation keeps rows, data and metadata aligned", "statement": "custom_collate returns a batch sorted by decreasing length in which row j's id, sos, eos, length, chunk index and data all come from the same sample, samples are neither lost nor duplicated, equal lengths keep their order and rows are right-padded with zeros.", "quantifier": "every list of samples", "why_tests_cant": "all permutations and length ties", "anchors": ["dreamstream/data/stream_dataset.py::AudioStreamDataset.custom_collate", "dreamstream/data/stream_dataset.py::concatenate_ragged"]}
{"id": "C49", "title": "Padding and unpadding are inverse", "statement": "unpad_sequence(pad_full_sequence(seqs)) returns the non-empty sequences unchanged with sos and eos set; pad_chunks keeps given flags and infers lengths; pad_stream_tensor re-batches single streams without changing their content.", "quantifier": "every list of sequences of any lengths", "why_tests_cant": "all ragged batches", "anchors": ["dreamstream/nn/utils/pad_sequence.py::pad_chunks", "dreamstream/nn/utils/pad_sequence.py::pad_full_sequence", "dreamstream/nn/utils/pad_sequence.py::pad_stream_tensor", "dreamstream/tensor.py::StreamTensor.unpad_sequence"]}
{"id": "C50", "title": "sequence_mask marks exactly the real positions", "statement": "sequence_mask(lengths, max_len)[i][j] is true exactly if j < lengths[i] (inverted if requested), with max_len columns, or max(lengths) columns if max_len is not given.", "quantifier": "every length vector and max_len", "why_tests_cant": "all inputs", "anchors": ["dreamstream/utils/operations.py::sequence_mask"]}
{"id": "C51", "title": "End to end: chunk, batch, stream, collect equals offline", "statement": "Padding sequences, splitting each into arbitrary non-empty chunks, re-batching the chunks in any order that respects each stream's order, running a patched model online and collecting its output gives for every sequence exactly the model's offline output, whenever all calls succeed and no first/last chunk vanishes.", "quantifier": "every set of sequences, chunk sizes, schedule and layer stack", "why_tests_cant": "test_equivalence samples this; the claim is for all", "anchors": ["tests/conftest.py::batches_of_waveform_chunks", "tests/patches/test_conv.py::TestConvs.test_equivalence", "dreamstream/patches/conv.py::conv_1d_pre_hook", "dreamstream/data/data_objects.py::OutputCollector", "dreamstream/nn/utils/pad_sequence.py::pad_stream_tensor"]}
{"id": "C52", "title": "A two-dimensional mask keeps exactly each stream's selected steps", "statement": "Indexing metadata with a boolean mask over batch and length drops the streams of which nothing is selected; every remaining stream has the length of its selected real steps, starts iff it started and its first step is selected, and ends iff it ended and its last real step is selected.", "quantifier": "every metadata object and every mask of matching shape", "why_tests_cant": "tests use one mask; the claim is about all masks, lengths and flags, including dropped streams and streams of length one", "anchors": ["dreamstream/tensor.py::StreamMetadata.index_batch_and_length", "dreamstream/tensor.py::StreamMetadata.__getitem__"]}
{"id": "C53", "title": "Data and metadata agree after any computation", "statement": "If the metadata of the given stream tensors tell the truth (exactly the first lengths[b] steps of row b are data, they belong to stream ids[b] and are in recorded order), so do those of every tensor computed from them by any number of indexing (also with None, integer tensors and masks over several dimensions), select, narrow, index_select, drop_empty, squeeze, unsqueeze, flatten, permute, transpose, split, unbind, gather, take_along_dim and cat operations under the argument conditions of C14-C23, C54 and C58, and of element-wise torch functions that go through the dispatch rules (default, in-place or recoupling) and whose sizes come from the streams.", "quantifier": "every value type, every tensor of any rank, every element-wise function, every sequence and combination of the operations", "why_tests_cant": "tests check single operations on single inputs; the claim is about all compositions, where an error in one operation shows only after later ones", "anchors": ["dreamstream/overrides.py::indexing", "dreamstream/overrides.py::cat", "dreamstream/overrides.py::split", "dreamstream/overrides.py::permute", "dreamstream/overrides.py::flatten", "dreamstream/tensor.py::StreamTensor.default_valid", "dreamstream/tensor.py::recouple"]}
{"id": "C54", "title": "gather and take_along_dim never mix streams or steps", "statement": "Gathering along a dimension other than batch and length takes every value from the same stream and step; the result has the input's names and its metadata describe exactly the streams and steps within the sizes of the index. Along batch or length there is never a result.", "quantifier": "every tensor of any rank, dimension (from either end) and index tensor", "why_tests_cant": "all ranks, layouts, index sizes and entries", "anchors": ["dreamstream/overrides.py::gather", "dreamstream/overrides.py::take_along_dim", "dreamstream/overrides.py::_gather_and_take_along_dim"]}
{"id": "C55", "title": "take names exactly the streams it took from", "statement": "torch.take on a StreamTensor returns the requested elements; its metadata list exactly the streams they come from, each once, with the lengths and flags of what was taken, and its name joins the names of the dimensions left.", "quantifier": "every tensor and every list of element numbers", "why_tests_cant": "all shapes, layouts and index lists", "anchors": ["dreamstream/overrides.py::take"]}
{"id": "C56", "title": "scatter_add and scatter_reduce keep metadata only when nothing is mixed", "statement": "Along a dimension other than batch and length, with equal metadata, the result has names and metadata of the input and every value combines the old value with exactly the elements sent there, all from the same stream and step. Along batch or length, or with different metadata, the result is a plain tensor.", "quantifier": "every reduction, tensor, dimension (from either end), index and source", "why_tests_cant": "all index tensors, layouts and metadata combinations", "anchors": ["dreamstream/overrides.py::scatter_add", "dreamstream/overrides.py::scatter_reduce", "dreamstream/overrides.py::scatter_add_", "dreamstream/overrides.py::scatter_reduce_"]}
{"id": "C57", "title": "decouple_recursive finds every StreamTensor", "statement": "decouple_recursive replaces every StreamTensor in nested tuples, lists and dicts by its data, changes nothing else, leaves none behind, and collects metadata and names of all of them from left to right.", "quantifier": "every nested value of any depth", "why_tests_cant": "unbounded nesting", "anchors": ["dreamstream/tensor.py::decouple_recursive"]}
{"id": "C58", "title": "Indexing with tensors of any rank", "statement": "An index expression that gives a StreamTensor has at most one list or tensor, no 0-d tensor, and a mask of two or more dimensions only at the end without Ellipsis. For such a mask the data are the masked elements, the masked dimensions become one with their joined names, and the metadata describe the streams and steps in which the mask is true anywhere; if it covers batch and length the result is a plain tensor. An integer tensor of any rank on another dimension leaves streams and steps alone and adds unnamed dimensions; on batch or length, with two or more dimensions, it fails.", "quantifier": "every tensor, rank, position of batch and length, mask, integer tensor and accompanying ints and slices", "why_tests_cant": "unbounded ranks, shapes and index contents", "anchors": ["dreamstream/overrides.py::__getitem__", "dreamstream/overrides.py::determine_dims_affected_by_indexing", "dreamstream/overrides.py::replace_ellipsis", "dreamstream/overrides.py::get_locations_of_multidimensional_booltensors", "dreamstream/overrides.py::any_along_dims", "dreamstream/overrides.py::join_dim_names"]}
{"id": "C59", "title": "None and several Ellipsis in an index", "statement": "None adds an unnamed dimension of size one and leaves names, data and metadata otherwise as without it; Ellipsis next to each other are as good as one.", "quantifier": "every tensor, index expression and number of None and Ellipsis", "why_tests_cant": "unbounded ranks and index expressions", "anchors": ["dreamstream/overrides.py::__getitem__", "dreamstream/overrides.py::determine_dims_affected_by_indexing", "dreamstream/overrides.py::replace_ellipsis", "dreamstream/overrides.py::get_locations_of_multidimensional_booltensors", "dreamstream/overrides.py::any_along_dims", "dreamstream/overrides.py::join_dim_names"]}
{"id": "C60", "title": "Single-precision lengths of strided slices", "statement": "The lengths that _index_length_slice computes by a float32 division and ceil are the numbers of real steps selected.", "quantifier": "every start, stride up to 2^24 and batch with lengths up to 2^24", "why_tests_cant": "rounding errors depend on both operands; the first wrong length is beyond 2^24", "anchors": ["dreamstream/tensor.py::_index_length_slice"]}
{"id": "C61", "title": "What StreamMetadata.__getitem__ accepts and selects", "statement": "meta[i], meta[i, j] and meta[None, j] select the streams i and the time steps j whatever kind of index i and j are; selecting streams and selecting steps commute; other expressions are refused.", "quantifier": "every batch and every pair of ints, slices, lists, tensors and masks", "why_tests_cant": "unbounded batches and combinations of index kinds", "anchors": ["dreamstream/tensor.py::__getitem__", "dreamstream/tensor.py::index", "dreamstream/tensor.py::index_batch", "dreamstream/tensor.py::index_length"]}
{"id": "C62", "title": "repr of metadata", "statement": "repr of stream metadata always succeeds and shows all ids, or some first ids and the last one within the width.", "quantifier": "every list of ids of any lengths", "why_tests_cant": "unbounded numbers and lengths of ids", "anchors": ["dreamstream/tensor.py::__repr__"]}
{"id": "C63", "title": "Splitting a list of examples among workers", "statement": "split_datasets of the demo makes as many datasets as the largest divisor of the batch size up to max_workers; they hold the given examples, each once; their batch sizes add up to the batch size, their names differ and their numbers of chunks differ by at most the longest example.", "quantifier": "every list of examples, batch size and number of workers", "why_tests_cant": "unbounded lists and numbers of workers; names repeat only from 27 workers on", "anchors": ["dreamstream/data/stream_dataset_demo.py::split_datasets", "dreamstream/data/stream_dataset_demo.py::partition_by_sum"]}
{"id": "C64", "title": "Delivery by the demo dataset and loader", "statement": "The demo loader delivers every chunk once, with the name of its dataset, in batches of at most the batch size; chunks of one example come in order, no two in one batch; with drop_last every example is delivered up to some point and all batches are full.", "quantifier": "every list of datasets, examples, batch sizes and shuffles", "why_tests_cant": "unbounded numbers and lengths of streams", "anchors": ["dreamstream/data/stream_dataset_demo.py::get_streams", "dreamstream/data/stream_dataset_demo.py::process_data", "dreamstream/data/stream_dataset_demo.py::custom_collate", "dreamstream/data/stream_dataset_demo.py::get_stream_loaders", "dreamstream/data/stream_dataset_demo.py::__iter__"]}
{"id": "C65", "title": "Stream buffers and the caller's tensors", "statement": "Between calls the stream buffers of a convolution are independent of the caller: the outputs are those for the chunks as they were at the time of each call, whatever the caller later writes to the tensors; the module never writes to the caller's tensors; a buffer keeps no more memory than its columns.", "quantifier": "every configuration, every sequence of writes and calls on any number of tensors of the caller", "why_tests_cant": "depends on which tensors share memory and on the order of writes and calls; tests make a new tensor for every chunk", "anchors": ["dreamstream/overrides.py::conv1d", "dreamstream/patches/conv.py::conv_1d_pre_hook", "dreamstream/patches/conv.py::conv_1d_post_hook"]}
{"id": "C66", "title": "Random stream tensors", "statement": "rand_stream_tensor returns a stream tensor whose metadata fit its data: one row per batch position, distinct ids, lengths from 0 to the size of the length dimension, all of which can occur; without a batch or length name it fails.", "quantifier": "every size, list of names and outcome of the random draws", "why_tests_cant": "rounding of the product of a draw and the size could reach the size for rare draws only", "anchors": ["dreamstream/random.py::rand_stream_tensor"]}
{"id": "C67", "title": "Several modules on one stream tensor", "statement": "In a network with branches every call affects only its own result: what the network computes on stream tensors that share metadata objects is what it computes when every tensor is a separate value.", "quantifier": "every program of element-wise functions, views, accesses to metadata, convolutions and element-wise combinations, every number of modules, every input and buffer state", "why_tests_cant": "results depend on which earlier tensors share a metadata object and on whether a lazy clone was read before a later call; unit tests call one module on a fresh tensor", "anchors": ["dreamstream/overrides.py::conv1d", "dreamstream/patches/conv.py::conv_1d_pre_hook", "dreamstream/tensor.py::StreamTensor.default_valid", "dreamstream/tensor.py::StreamTensor.decouple", "dreamstream/tensor.py::StreamMetadata.__deepcopy__"]}
{"id": "C68", "title": "Functions without a rule of their own", "statement": "A torch function that has no rule of its own and computes along a dimension (softmax, cumsum) or over dimensions (sum, mean) of a stream tensor returns a stream tensor whose metadata fit, and the real data of every stream in it are computed from the real data of that stream only.", "quantifier": "every such function, every tensor of every rank, every padding, every choice of dimensions by number or name, with and without keepdim", "why_tests_cant": "results look right in tests without padding, with one stream, or along other dimensions; whether padding enters a result depends on the lengths in the batch and on the function", "anchors": ["dreamstream/tensor.py::StreamTensor.__torch_function__", "dreamstream/tensor.py::StreamTensor.default_valid", "dreamstream/func_coverage.py::DEFAULT_VALID_FUNCTIONS"]}
{"id": "C69", "title": "Making stream tensors and taking them apart", "statement": "Putting together data, metadata and names gives a stream tensor whose metadata fit, taking it apart gives them back, and the functions that leave the world of streams (frexp's pair, quantising, masked_select) return exactly torch's values on the plain data.", "quantifier": "every tensor, names, metadata; every mask and every shape it is broadcast to", "why_tests_cant": "tests construct tensors whose metadata fit and use plain masks; sizes are never compared and stream masks take another path", "anchors": ["dreamstream/tensor.py::as_stream_tensor", "dreamstream/tensor.py::stream_tensor", "dreamstream/tensor.py::StreamTensor.decouple", "dreamstream/tensor.py::StreamTensor.tensor", "dreamstream/overrides.py::frexp", "dreamstream/overrides.py::masked_select", "dreamstream/overrides.py::quantize_per_tensor"]}
{"id": "C70", "title": "Times are shown and summarised correctly", "statement": "The text that a time is shown as is the closest decimal number of the given precision in the largest unit that fits, longer times are never shown as shorter ones, the length is at most the documented one, and a measurement reports minimum, maximum, mean, median and deviation of the times per iteration and warns exactly if the worst is more than four times the best.", "quantifier": "every time, unit, precision, list of measured times and number of iterations", "why_tests_cant": "rounding and change of unit depend on single values near powers of ten; any finite set of measured times misses the boundary cases", "anchors": ["dreamstream/utils/timing.py::format_time", "dreamstream/utils/timing.py::timeit"]}
{"id": "C71", "title": "The lists of functions are loaded as they were written", "statement": "Loading a list of functions gives exactly the functions that the script which determined them wrote to the file for this list, whatever else is in the directory; each function is in one list, that of its kind.", "quantifier": "every set of functions, every directory listing order, every installation path", "why_tests_cant": "one installation has one set of files, one path and one order of the directory", "anchors": ["dreamstream/utils/listloaders.py::get_tensor_attr", "dreamstream/utils/listloaders.py::load_default_valid_pointwise_ops", "dreamstream/utils/listloaders.py::load_valid_pointwise_ops", "dreamstream/utils/listloaders.py::load_recouple_pointwise_ops", "dreamstream/utils/listloaders.py::load_inplace_recouple_pointwise_ops"]}
{"id": "C72", "title": "Warnings can be switched off and on", "statement": "suppress_warnings(True) silences exactly the package's own warnings and suppress_warnings(False) brings each of them back, without changing what happens to other warnings and without changing results; a function whose result is no longer a stream tensor says so.", "quantifier": "every state of Python's warning filters and registries that can be reached, every sequence of warnings of every category and module, every number of calls", "why_tests_cant": "what is shown depends on filters of the program and of other libraries, on what was shown before and where; the function is marked in the source as untested", "anchors": ["dreamstream/warnings.py::suppress_warnings", "dreamstream/warnings.py::warn", "dreamstream/warnings.py::fallback_operation_warning", "dreamstream/tensor.py::StreamTensor.__torch_function__", "dreamstream/overrides.py::flatten", "dreamstream/overrides.py::scatter_add", "dreamstream/overrides.py::scatter_reduce"]}
{"id": "C73", "title": "The example program gets the offline outputs", "statement": "The example program cuts sequences into chunks of random sizes, batches chunks of several sequences at random, runs the network online on the batches and collects the outputs; it ends without an exception and has for each sequence the output that the network gives offline.", "quantifier": "every set of sequences and ids, every network of smooth convolutions and pointwise layers, every sequence of random chunk sizes and random choices", "why_tests_cant": "the program uses one seed; whether a chunk becomes empty inside the network depends on the size of the last chunk and on which chunks share its batch", "anchors": ["examples/wav2letter.py::random_chunks", "examples/wav2letter.py::run", "dreamstream/patches/conv.py::conv_1d_pre_hook", "dreamstream/nn/utils/pad_sequence.py::pad_stream_tensor", "dreamstream/data/data_objects.py::OutputCollector._update_unary"]}
{"id": "C74", "title": "Floating point does not change the chunk size", "statement": "The chunk size that the dataset computes from chunk_seconds, sample rate and stride in double precision is the exact value rounded to the nearest integer; a duration that stands for a whole number of frames gives that number of frames.", "quantifier": "every chunk duration, sample rate, number of frames and number of transformed frames", "why_tests_cant": "the tests use durations of 0.1, 0.5, 1 and 2 seconds at one rate without a transform; rounding errors show only for particular combinations", "anchors": ["dreamstream/data/stream_dataset.py::AudioStreamDataset.process_data"]}
{"id": "C75", "title": "Objects of the library can be pickled", "statement": "StreamSamples, StreamTensors, metadata and collectors can be sent to another process, saved and copied, and arrive as they were: __getstate__ and __setstate__ keep data, metadata and names.", "quantifier": "every value built from tuples, lists, tensors, StreamTensors, metadata and other objects, at any depth", "why_tests_cant": "no test pickles or copies anything; a failure depends on what is nested where", "anchors": ["dreamstream/tensor.py::StreamTensor.__getstate__", "dreamstream/tensor.py::StreamTensor.__setstate__", "dreamstream/tensor.py::LazyProxy.__getattr__", "dreamstream/tensor.py::LazyInit.__new__", "dreamstream/data/data_objects.py::StreamSample", "dreamstream/data/data_objects.py::OutputCollector"]}
{"id": "C76", "title": "A worker process delivers the items of its dataset in order", "statement": "A loader with worker processes gives every item of the dataset, in order, whatever the relative speed of the processes, and ends as the dataset does.", "quantifier": "every dataset, prefetch factor and interleaving of the two processes", "why_tests_cant": "a test sees the interleavings that happen to occur; items that cannot be pickled are lost without an exception", "anchors": ["dreamstream/data/stream_dataset.py::MultiStreamDataLoader.get_stream_loaders"]}
{"id": "C77", "title": "The one-process loader delivers what the loader delivers", "statement": "MultiStreamOneProcessDataLoader gives the same batches as MultiStreamDataLoader with the same arguments, collated in the calling process or in one worker.", "quantifier": "every dataset or list of datasets, every combination of the options, every interleaving of the two processes", "why_tests_cant": "no test makes this loader with a worker or with drop_last, timeout or persistent_workers; batches that never arrive make a test hang rather than fail", "anchors": ["dreamstream/data/stream_dataset.py::MultiStreamOneProcessDataLoader.__init__", "dreamstream/data/stream_dataset.py::MultiStreamOneProcessDataLoader.__iter__"]}
{"id": "C78", "title": "Documented calls of overridden functions are understood", "statement": "An overridden torch function takes every call that torch's documentation allows, and every argument, by position or by keyword, means what the documentation says.", "quantifier": "every registered override, number of positional arguments and set of keywords", "why_tests_cant": "the tests call each function in one way; there are more ways than anyone writes down", "anchors": ["dreamstream/tensor.py::StreamTensor.__torch_function__", "dreamstream/overrides.py::permute", "dreamstream/overrides.py::split", "dreamstream/overrides.py::unbind", "dreamstream/overrides.py::frexp", "dreamstream/overrides.py::take", "dreamstream/overrides.py::take_along_dim", "dreamstream/overrides.py::scatter_reduce_"]}
{"id": "C79", "title": "Ragged tensors are stacked and padded", "statement": "concatenate_ragged of tensors of any rank that agree except in dimension dim gives a tensor with a new first dimension that holds every tensor unchanged, padded with the pad value to the greatest size of dim; anything else is refused.", "quantifier": "every list of tensors, every dim, every pad value", "why_tests_cant": "all ranks, sizes and dims; the tests only use mono audio with dim=-1", "anchors": ["dreamstream/data/stream_dataset.py::concatenate_ragged"]}
{"id": "C80", "title": "Padding and unpadding tensors of any rank", "statement": "pad_chunks, pad_full_sequence and pad_stream_tensor of tensors with any named dimensions give a well-formed StreamTensor with length and batch first that holds every element at its place; unpad_sequence gives x[b, :length] for every stream, whatever the order of the dimensions, and undoes the padding.", "quantifier": "every list of tensors of any rank, every order of dimensions", "why_tests_cant": "all ranks, names and orders of dimensions", "anchors": ["dreamstream/nn/utils/pad_sequence.py::pad_chunks", "dreamstream/nn/utils/pad_sequence.py::pad_full_sequence", "dreamstream/nn/utils/pad_sequence.py::pad_stream_tensor", "dreamstream/tensor.py::StreamTensor.unpad_sequence"]}
{"id": "C81", "title": "Several worker processes at once", "statement": "With worker processes the loader delivers exactly the rounds of batch parts that the loaders of the parts give one after the other, whatever the interleaving of the processes: item number r of every part in round r, ending with the shortest part (drop_last) or the longest (otherwise), with the exception of a part raised in its round. The program never waits for ever.", "quantifier": "every number of parts, every sequence of items of each part, every prefetch factor, every interleaving of the main process and the workers", "why_tests_cant": "all interleavings of several processes; a run shows one", "anchors": ["dreamstream/data/stream_dataset.py::MultiStreamDataLoader.get_stream_loaders"]}
{"id": "C82", "title": "Groups of files without overlapping batches are full", "statement": "Without overlapping batches, whenever new files start, as many start together as the first batch has files, unless all files of the stream have started by then. With one worker process that is the batch size (or all files, if there are fewer); with several workers it is the number of places the workers can fill from their own files at the start, which may be less than the batch size.", "quantifier": "every well-formed stream of samples; every dataset, batch size, number of workers, order of files and shuffle of the loader", "why_tests_cant": "all interleavings of file starts and ends in the stream and all partitions of files over workers", "anchors": ["dreamstream/data/stream_dataset.py::make_streams_synchronous", "dreamstream/data/stream_dataset.py::continue_buffering", "dreamstream/data/stream_dataset.py::MultiStreamDataLoader.__iter__"]}
{"id": "C83", "title": "Streaming convolutions on tensors with weights", "statement": "For StreamTensors with dimensions (B, any, L), streaming an nn.Conv1d with any weights, bias, groups, stride up to the kernel span, dilation and zero padding gives for every complete stream exactly the elements of the convolution of the whole sequence, with the names of the input and the metadata of the chunks. Calls on tensors agree with calls on rows of columns in results, buffers and errors.", "quantifier": "every element type and summation, all parameters of nn.Conv1d, every schedule of chunks over any number of streams, every tensor", "why_tests_cant": "all weights, groups, sizes, schedules and element types at once", "anchors": ["dreamstream/overrides.py::conv1d", "dreamstream/patches/conv.py::conv_1d_pre_hook", "dreamstream/patches/conv.py::conv_1d_post_hook"]}
{"id": "C84", "title": "Networks of convolutions on tensors", "statement": "For a sequential network of nn.Conv1d modules and layers that work on the channels of each time step, on StreamTensors (B, any, L), streaming chunks gives for every complete stream the concatenation that the plain network computes from the whole sequence, provided that padding stays zero in front of every convolution and that start and end chunks keep data in front of every layer.", "quantifier": "every element type and summation, all networks with any channel counts and parameters, every schedule of chunks over any number of streams, every tensor", "why_tests_cant": "all networks, weights, schedules and element types at once", "anchors": ["dreamstream/overrides.py::conv1d", "dreamstream/patches/conv.py::conv_1d_pre_hook", "dreamstream/patches/modes.py::online", "dreamstream/tensor.py::StreamTensor.__torch_function__"]}
{"id": "C85", "title": "The sets of supported and unsupported functions are those the library handles", "statement": "After the import, SUPPORTED_FUNCTIONS holds exactly the functions with a rule of their own (the five lists and the registered overrides), UNSUPPORTED_FUNCTIONS the other overridable functions, SUPPORTED_NON_OVERRIDEABLE_FUNCTIONS the supported ones torch does not dispatch; later registrations replace earlier ones.", "quantifier": "every set of overridable functions, every sequence of registrations", "why_tests_cant": "the set of overridable functions depends on the torch version and registrations are open-ended", "anchors": ["dreamstream/func_coverage.py::SUPPORTED_FUNCTIONS", "dreamstream/func_coverage.py::UNSUPPORTED_FUNCTIONS", "dreamstream/overrides.py::implements"]}
{"id": "C86", "title": "A residual connection around a streaming convolution", "statement": "In streaming mode x + conv(x), for a convolution that keeps the number of columns, gives for every stream the columns of the unmodified network, however the stream is cut into chunks; where it cannot, it raises an error.", "quantifier": "every kernel, every sum of columns, every batch, every schedule of chunks", "why_tests_cant": "whether the two operands line up depends on how the stream is cut; chunks in the middle of a stream raise no error", "anchors": ["dreamstream/tensor.py::StreamTensor.default_valid", "dreamstream/overrides.py::conv1d", "dreamstream/patches/conv.py::conv_1d_pre_hook"]}
{"id": "C87", "title": "align_to moves dimensions by name", "statement": "align_to gives a tensor whose dimensions are in the order of the names asked for, with the same value at the same place under the names, size 1 for new names and the metadata of the operand; a well-formed stream tensor stays well formed, and unnamed dimensions, missing names and repeated names are refused.", "quantifier": "every tensor, every list of names, every metadata", "why_tests_cant": "tests use one order of three dimensions", "anchors": ["dreamstream/tensor.py::StreamTensor.__torch_function__", "dreamstream/func_coverage.py"]}
{"id": "C88", "title": "The example program on tensors gets the offline outputs", "statement": "The example program, run on tensors of sizes (features, length) with convolutions given by weights, bias, stride, padding, dilation and groups, ends without an exception and has for each sequence the row of the output that the network gives offline.", "quantifier": "every set of sequences and ids, every network of convolutions and layers on time steps, every sequence of random chunk sizes and random choices", "why_tests_cant": "the program uses one seed and one network; a chunk may become empty inside the network", "anchors": ["examples/wav2letter.py::run", "dreamstream/tensor.py::StreamTensor.unpad_sequence", "dreamstream/nn/utils/pad_sequence.py::pad_stream_tensor", "dreamstream/nn/utils/pad_sequence.py::pad_full_sequence", "dreamstream/data/data_objects.py::OutputCollector._update_unary", "dreamstream/patches/conv.py::conv_1d_pre_hook"]}
{"id": "C89", "title": "Chunk indices through convolutions and networks into the collector", "statement": "The output of a streaming convolution carries chunk indices iff its input does and the kernel has width 1 or all rows have the same number of buffered columns; a network composes this layer by layer, and the loop into an OutputCollector succeeds with the offline outputs and last chunk indices iff the non-empty output chunks of every stream agree about carrying indices, and raises ValueError otherwise.", "quantifier": "every stack of convolutions and element-wise layers, every schedule of complete streams, every choice of batches with chunk indices", "why_tests_cant": "whether indices survive depends on the lengths of buffers left by all earlier batches", "anchors": ["dreamstream/patches/conv.py::conv_1d_pre_hook", "dreamstream/nn/utils/pad_sequence.py::pad_stream_tensor", "dreamstream/tensor.py::StreamMetadata.cat_length", "dreamstream/data/data_objects.py::OutputCollector._update_unary"]}
{"id": "C90", "title": "A data loader in front of a network", "statement": "Running a patched network over the collated batches of a MultiStreamDataLoader and collecting the outputs gives for each file the offline output of its audio.", "quantifier": "every set of files, every number of workers, every shuffle, every network", "why_tests_cant": "the repository has no program that joins the two; the result depends on how files are batched", "anchors": ["dreamstream/data/stream_dataset.py::MultiStreamDataLoader.__iter__", "dreamstream/data/stream_dataset.py::AudioStreamDataset.process_data", "dreamstream/data/stream_dataset.py::AudioStreamDataset.custom_collate", "dreamstream/patches/conv.py::conv_1d_pre_hook", "dreamstream/data/data_objects.py::OutputCollector._update_unary"]}
{"id": "C91", "title": "Arguments for worker processes reach the DataLoaders", "statement": "When the iteration over a MultiStreamDataLoader begins, worker_init_fn is called once for every worker with the numbers 0, 1, 2, ...; every worker gives out as many tasks in advance as prefetch_factor says; exactly the arguments torch accepts can be used.", "quantifier": "every dataset or list of datasets, every num_workers, timeout, prefetch_factor and persistent_workers", "why_tests_cant": "the arguments act inside worker processes and are lost without an exception", "anchors": ["dreamstream/data/stream_dataset.py::MultiStreamDataLoader.__init__", "dreamstream/data/stream_dataset.py::MultiStreamDataLoader._get_worker_init_fn", "dreamstream/data/stream_dataset.py::MultiStreamDataLoader.get_stream_loaders"]}
{"id": "C92", "title": "A Python list of bool selects like the BoolTensor with the same values", "statement": "x[..., bs, ...] with a Python list of bool gives the same data, names and metadata as with a BoolTensor of the same values.", "quantifier": "every StreamTensor, every dimension but the length dimension, every list, every other items in the index", "why_tests_cant": "the list is read by torch as a mask and by the metadata once as integers and once as a mask; with all values True the call succeeds and only the ids are wrong", "anchors": ["dreamstream/overrides.py::__getitem__", "dreamstream/overrides.py::determine_dims_affected_by_indexing", "dreamstream/tensor.py::StreamMetadata.index_batch"]}
{"id": "C93", "title": "Module objects used in several places stream like others; a refused patch changes nothing", "statement": "patch equips every convolution of a model exactly once, also if a module object is used in several places; online each place then computes what the offline model computes; a model that patch refuses is left as it was. Switching the mode succeeds iff every object of the model is patched; it then reaches these objects and no others, keeps hooks and buffers, and the last switch counts.", "quantifier": "every model (every graph of module objects without cycles), every state left by earlier patches, every unsupported module", "why_tests_cant": "weight sharing between blocks and patching part of a model after a refusal are rare; patch and online succeed in both cases and the failure comes with the first call", "anchors": ["dreamstream/patches/general.py::patch", "dreamstream/patches/general.py::patch_module", "dreamstream/patches/modes.py::online", "dreamstream/patches/conv.py::patch_conv_1d"]}
{"id": "C94", "title": "Pooling layers in patched models", "statement": "A model with a pooling layer that patch accepts computes online, chunk by chunk, what the layer computes offline from the whole sequence, and the metadata of its output give the lengths of the output.", "quantifier": "every kernel size and stride, every pooled function, every batch and every division of a stream into chunks", "why_tests_cant": "patch refuses modules that do not work yet but not this one; single chunks and chunks of even length give the right values, only the lengths are wrong", "anchors": ["dreamstream/patches/general.py::patch_module", "dreamstream/tensor.py::StreamTensor.__torch_function__", "dreamstream/tensor.py::StreamTensor.default_valid"]}
