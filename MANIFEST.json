{
 "claims": [
  {
   "property": "C01",
   "status": "partial",
   "theorems": [
    "C01_slice_rows",
    "C01_slice_nostep_rows",
    "C01_slice_bad_step",
    "C01_int_row",
    "C01_int_out_of_range",
    "C01_list_rows",
    "C01_list_out_of_range",
    "C01_mask_rows",
    "C01_mask_wrong_size",
    "C01_bool_list_refuted"
   ],
   "note": "Proved for int, slice, int list/tensor and BoolTensor indices and their error cases. Refuted for Python lists of bool (ids come from positions 0/1 while the flags are masked)."
  },
  {
   "property": "C02",
   "status": "partial",
   "theorems": [
    "C02_slice_exact_partial",
    "C02_bounds",
    "C02_crossed_refuted"
   ],
   "note": "Exact for slices whose ends do not cross; refuted otherwise: crossed ends give every row the same negative length."
  },
  {
   "property": "C03",
   "status": "partial",
   "theorems": [
    "C03_strided_open_partial",
    "C03_stop_ignored_refuted",
    "C03_wrong_length_refuted",
    "C03_negative_step_refused",
    "C03_zero_step_refused"
   ],
   "note": "Exact when stop is omitted; refuted with an explicit stop, which the code ignores."
  },
  {
   "property": "C04",
   "status": "partial",
   "theorems": [
    "C04_int_step",
    "C04_int_negative",
    "C04_before_start_refuted",
    "C04_no_streams"
   ],
   "note": "True of every step from 0 on and every negative one that reaches back to the first step at most (counted from the longest row). C04_before_start_refuted: further back nothing is refused and every row, also an empty one, gets length 1; on a tensor torch refuses the index before. C04_no_streams: metadata without streams."
  },
  {
   "property": "C05",
   "status": "partial",
   "theorems": [
    "C05_list_exact",
    "C05_before_start_refuted",
    "C05_no_streams",
    "C05_unsorted_refused",
    "C05_mask_is_list",
    "C05_list_loses_eos_refuted"
   ],
   "note": "Exact characterisation for int lists and masks; the part 'same metadata as the slice' is refuted: eos is lost when the last listed step is the last real one. C05_before_start_refuted: positions before the first step count as real data. C05_no_streams: metadata without streams."
  },
  {
   "property": "C06",
   "status": "proved",
   "theorems": [
    "C06_split_partition",
    "C06_piece_sizes",
    "C06_wrong_sizes",
    "C06_no_streams",
    "C06_empty_row_loses_eos_refuted"
   ],
   "note": "For every row; a row with no data at all loses eos (refuted theorem, outside the claim's 'non-empty row')."
  },
  {
   "property": "C07",
   "status": "proved",
   "theorems": [
    "C07_cat_length_accepts",
    "C07_cat_length_refuses",
    "C07_single"
   ],
   "note": ""
  },
  {
   "property": "C08",
   "status": "proved",
   "theorems": [
    "C08_roundtrip_int",
    "C08_roundtrip_sections",
    "C08_short_stream_refused_int",
    "C08_short_stream_refused_sections"
   ],
   "note": "Sections must be positive with the last one needed; short eos rows are refused."
  },
  {
   "property": "C09",
   "status": "proved",
   "theorems": [
    "C09_split_groups",
    "C09_split_sections",
    "C09_split_wrong_sections",
    "C09_wrong_sizes",
    "C09_unbind",
    "C09_cat",
    "C09_roundtrip_int",
    "C09_roundtrip_sections",
    "C09_roundtrip_unbind"
   ],
   "note": "Empty batches excluded from the round trip (torch.cat of nothing raises)."
  },
  {
   "property": "C10",
   "status": "partial",
   "theorems": [
    "C10_eq_nochunks_partial",
    "C10_eq_chunks_refuted",
    "C10_eq_refuted"
   ],
   "note": "Refuted: unequal metadata raises AttributeError; with chunk indices the comparison is between chunk indices and lengths. Exact characterisation proved."
  },
  {
   "property": "C11",
   "status": "proved",
   "theorems": [
    "C11_caches_never_stale",
    "C11_shared_tensor_refuted"
   ],
   "note": "For every history of one object with its own tensors. Also shown (refuted variant): tensors shared through slices can make another object's cache stale."
  },
  {
   "property": "C12",
   "status": "partial",
   "theorems": [
    "C12_clone_values",
    "C12_original_isolated",
    "C12_clone_isolated_partial",
    "C12_unread_clone_partial",
    "C12_snapshot_refuted",
    "C12_copy_shares_refuted"
   ],
   "note": "Values at the call, isolation of the original from the clone, and isolation of the clone after its first use are proved for all histories; refuted: an in-place update of the original before the first use of the clone leaks into it (copying is lazy), and copy.copy shares tensors."
  },
  {
   "property": "C13",
   "status": "partial",
   "theorems": [
    "C13_inconsistent_unreadable",
    "C13_creation_raises_refuted",
    "C13_consistent_sizes",
    "C13_accept_iff",
    "C13_wf_is_rows"
   ],
   "note": "Deferred ValueError, unreadability for all access histories and the size invariant are proved; the claim that creation itself raises is refuted (lazy construction), and assigning an attribute afterwards makes it readable."
  },
  {
   "property": "C14",
   "status": "partial",
   "theorems": [
    "C14_meta_drop_empty",
    "C14_drop_empty_partial",
    "C14_one_left_refuted"
   ],
   "note": "Metadata and tensors proved, except that drop_empty of a tensor fails with TypeError when exactly one of several streams is left (refuted)."
  },
  {
   "property": "C15",
   "status": "partial",
   "theorems": [
    "C15_names",
    "C15_empty_tuple_refuted"
   ],
   "note": "Proved for every accepted index expression of the claim on tensors with a batch and a length dimension; refuted for the empty tuple x[()], which fails."
  },
  {
   "property": "C16",
   "status": "partial",
   "theorems": [
    "C16_in_step_partial",
    "C16_real_steps",
    "C16_slices_in_order",
    "C16_slice_flags",
    "C16_select",
    "C16_negative_time_refuted"
   ],
   "note": "Proved for every expression whose time index is sound (nonnegative, or the longest selected stream fills the tensor; ends in order; lists in time order). Refuted: negative time indices count from the longest selected stream, so padding is counted as data."
  },
  {
   "property": "C17",
   "status": "partial",
   "theorems": [
    "C17_narrow_partial",
    "C17_narrow_outside",
    "C17_negative_start_refuted"
   ],
   "note": "Proved for start >= 0 and any dim; refuted for negative start."
  },
  {
   "property": "C18",
   "status": "partial",
   "theorems": [
    "C18_index_select_partial",
    "C18_negative_dim_refuted"
   ],
   "note": "Proved for nonnegative dim; refuted for every negative dim: metadata are not touched."
  },
  {
   "property": "C19",
   "status": "partial",
   "theorems": [
    "C19_unsqueeze_partial",
    "C19_unsqueeze_negative_refuted",
    "C19_squeeze_dim",
    "C19_squeeze_all_partial",
    "C19_squeeze_all_refuted"
   ],
   "note": "squeeze(d) for every d, unsqueeze for nonnegative d, squeeze() when unnamed dimensions are alike; refuted for unsqueeze with negative d and squeeze() with mixed unnamed dimensions."
  },
  {
   "property": "C20",
   "status": "partial",
   "theorems": [
    "C20_falls_back_partial",
    "C20_joins_partial",
    "C20_default_end_refuted",
    "C20_unnamed_refuted"
   ],
   "note": "Proved for every start and every end but -1 with named dimensions; refuted for end = -1 (the default) and for unnamed dimensions, which fail."
  },
  {
   "property": "C21",
   "status": "partial",
   "theorems": [
    "C21_adjoint_refuted",
    "C21_permute",
    "C21_permute_refused",
    "C21_T",
    "C21_method_transpose",
    "C21_torch_transpose_refuted",
    "C21_permute_tuple_refuted"
   ],
   "note": "permute, T and Tensor.transpose proved; refuted for torch.transpose (names stay in place) and permute with a tuple (fails)."
  },
  {
   "property": "C22",
   "status": "proved",
   "theorems": [
    "C22_split",
    "C22_unbind",
    "C22_unbind_length_refused",
    "C22_no_such_dim",
    "C22_split_refused",
    "C22_no_streams"
   ],
   "note": "Along length the batch must not be empty."
  },
  {
   "property": "C23",
   "status": "partial",
   "theorems": [
    "C23_batch",
    "C23_batch_refuses_plain",
    "C23_length",
    "C23_length_refuses",
    "C23_out_of_order_refuted",
    "C23_other_dim_partial",
    "C23_other_dim_refuted",
    "C23_other_dim_chunks_refuted",
    "C23_names"
   ],
   "note": "Batch and length proved including mixed plain tensors; refuted: chunk order is not checked, the last operand's metadata are not compared along other dimensions, and with chunk indices equal metadata are refused. C23_names: the names are exactly those of the operands taken together."
  },
  {
   "property": "C24",
   "status": "partial",
   "theorems": [
    "C24_rules",
    "C24_common_metadata_partial",
    "C24_refuses_partial",
    "C24_accepts_partial",
    "C24_chunk_indices_refuted",
    "C24_inplace_refuted",
    "C24_list_argument_refuted",
    "C24_tuple_result_refuted"
   ],
   "note": "Proved for streams without chunk indices and result tensors: common metadata (and names for the recoupling rule), acceptance, refusal. Refuted: with chunk indices equality is wrong both ways, in-place functions do not compare, streams in list arguments are not seen, tuple results carry no metadata."
  },
  {
   "property": "C25",
   "status": "partial",
   "theorems": [
    "C25_default",
    "C25_decoupled_partial",
    "C25_valid_keywords_refuted",
    "C25_valid_positional_partial",
    "C25_custom_partial",
    "C25_custom_refuted",
    "C25_streams_in_lists_refuted"
   ],
   "note": "Default rule: everything is passed on. Decoupling rules: everything is passed on when no stream is inside a list. Refuted: functions registered as valid lose all keywords; several overrides refuse documented argument names. torch's own implementations are arbitrary functions of the raw arguments. C25_streams_in_lists_refuted: with a stream inside a list the decoupling rules always fail."
  },
  {
   "property": "C26",
   "status": "proved",
   "theorems": [
    "C26_streaming_equals_offline",
    "C26_offline_is_the_plain_module",
    "C26_wide_stride_refuted"
   ],
   "note": "Input widths as in C34; stride > kernel width shown to be wrong (outside the claim)."
  },
  {
   "property": "C27",
   "status": "proved",
   "theorems": [
    "C27_stack_equals_offline",
    "C27_vanishing_chunk_refuted",
    "C27_succeeds_iff",
    "C27_long_chunks"
   ],
   "note": "Rows without spare columns between layers; the vanishing-chunk condition of the claim is shown to be needed. C27_succeeds_iff: exactly when all calls succeed; C27_long_chunks: they do, and nothing vanishes, if every chunk is long enough for the stack without padding."
  },
  {
   "property": "C28",
   "status": "proved",
   "theorems": [
    "C28_output_so_far",
    "C28_prefix_of_offline"
   ],
   "note": ""
  },
  {
   "property": "C29",
   "status": "proved",
   "theorems": [
    "C29_never_fails",
    "C29_condition_necessary",
    "C29_stride_equal_width_refuted"
   ],
   "note": "The condition is also shown to be necessary; stride = kernel width (outside the claim) can fail with TypeError."
  },
  {
   "property": "C30",
   "status": "proved",
   "theorems": [
    "C30_bounded_and_released",
    "C30_bounded_any_input",
    "C30_released_any_input"
   ],
   "note": ""
  },
  {
   "property": "C31",
   "status": "proved",
   "theorems": [
    "C31_streams_independent"
   ],
   "note": ""
  },
  {
   "property": "C32",
   "status": "partial",
   "theorems": [
    "C32_restart_in_starting_batch_partial",
    "C32_fresh_start_any_buffers_partial",
    "C32_restart_in_mixed_batch_refuted"
   ],
   "note": "Proved if all streams of the batch start; refuted in mixed batches, where the old buffer is prepended."
  },
  {
   "property": "C33",
   "status": "partial",
   "theorems": [
    "C33_input_kept_partial",
    "C33_input_gets_output_metadata_partial",
    "C33_input_altered_refuted",
    "C33_data_altered_refuted",
    "C33_data_exact"
   ],
   "note": "Proved if some stream continues and the kernel spans more than one frame; refuted otherwise: input metadata (and for width-1 kernels data) is overwritten. C33_data_exact says in every case which data the input has afterwards."
  },
  {
   "property": "C34",
   "status": "partial",
   "theorems": [
    "C34_spare_padding_harmless_partial",
    "C34_which_widths_fit_partial",
    "C34_spare_padding_refuted"
   ],
   "note": "Proved for all widths except spare columns in a batch in which all streams start, not all end and padding > 0; refuted there."
  },
  {
   "property": "C35",
   "status": "partial",
   "theorems": [
    "C35_zero_beyond_length",
    "C35_output_shape",
    "C35_nwin_counts_positions",
    "C35_ids_and_flags_kept",
    "C35_empty_chunk_flag_refuted"
   ],
   "note": "Zero region proved for every call, lengths for every call of the convolution, ids and flags for schedules whose flagged chunks are non-empty; refuted for empty flagged chunks in mixed batches, whose flags are lost."
  },
  {
   "property": "C36",
   "status": "partial",
   "theorems": [
    "C36_patch_succeeds",
    "C36_all_modules_in_mode",
    "C36_matrix",
    "C36_offline_values",
    "C36_subclass_refuted",
    "C36_late_module_refuted"
   ],
   "note": "Proved for every tree of supported modules that was patched as a whole, every history of switches and calls. Refuted: subclasses of nn.Conv1d are accepted by patch but not equipped; a module added after patching breaks online()."
  },
  {
   "property": "C37",
   "status": "partial",
   "theorems": [
    "C37_offline_unchanged_partial",
    "C37_twice_never_works_refuted",
    "C37_repatch_resets"
   ],
   "note": "Offline behaviour is unchanged for any number of patches; refuted online: a module patched twice never completes an online call."
  },
  {
   "property": "C38",
   "status": "proved",
   "theorems": [
    "C38_reassembles",
    "C38_empty_first_chunk_refuted",
    "C38_empty_last_chunk_refuted"
   ],
   "note": "Batches and single chunks in any interleaving. The two refutations show that the restriction to non-empty chunks is needed: a batch row of length zero is skipped together with its start or end flag."
  },
  {
   "property": "C39",
   "status": "partial",
   "theorems": [
    "C39_closed_id_rejected",
    "C39_wrong_start_rejected_partial",
    "C39_entries_survive_errors",
    "C39_one_stream",
    "C39_padded_entry",
    "C39_accepts_exactly_conforming",
    "C39_rejected_chunk_closes_refuted"
   ],
   "note": "All three kinds of violation raise ValueError and leave the stored entries unchanged, but a rejected chunk with eos still marks its id as closed (C39_rejected_chunk_closes_refuted), so the collector is not left unchanged."
  },
  {
   "property": "C40",
   "status": "proved",
   "theorems": [
    "C40_file_chunks",
    "C40_chunk_size",
    "C40_rejects"
   ],
   "note": "Chunk size is shown to be the rounded quotient; an empty audio and a chunk size that rounds to 0 raise."
  },
  {
   "property": "C41",
   "status": "partial",
   "theorems": [
    "C41_sample_data_refuted",
    "C41_pieces_partial"
   ],
   "note": "Refuted: every sample carries the whole audio. The pieces that index and length designate do concatenate to the audio."
  },
  {
   "property": "C42",
   "status": "proved",
   "theorems": [
    "C42_every_chunk_once"
   ],
   "note": ""
  },
  {
   "property": "C43",
   "status": "partial",
   "theorems": [
    "C43_drop_last",
    "C43_too_few_files_refuted",
    "C43_workers_refuted"
   ],
   "note": "Proved for one dataset with at least batch_size files. Refuted for fewer files (RuntimeError) and for several workers (a stream is cut without end flag)."
  },
  {
   "property": "C44",
   "status": "proved",
   "theorems": [
    "C44_balanced_partition",
    "C44_rejects"
   ],
   "note": ""
  },
  {
   "property": "C45",
   "status": "partial",
   "theorems": [
    "C45_split",
    "C45_rejects",
    "C45_constructed_can_be_split",
    "C45_true_chunks_refuted"
   ],
   "note": "Everything proved, balance with respect to the rounded estimates of the numbers of chunks; balance of the true numbers of chunks is refuted."
  },
  {
   "property": "C46",
   "status": "proved",
   "theorems": [
    "C46_synchronous",
    "C46_empty_stream_refuted"
   ],
   "note": "An empty input stream (outside the claim) raises RuntimeError."
  },
  {
   "property": "C47",
   "status": "partial",
   "theorems": [
    "C47_loader",
    "C47_loader_of_list",
    "C47_loader_drop_last",
    "C47_collated",
    "C47_empty_dataset_refuted",
    "C47_default_collate_refuted",
    "C47_rejects"
   ],
   "note": "Proved for any collate function that is passed and, in non-overlapping mode, a non-empty dataset. Refuted for an empty dataset in non-overlapping mode (RuntimeError) and for the default collate function (TypeError)."
  },
  {
   "property": "C48",
   "status": "proved",
   "theorems": [
    "C48_collate",
    "C48_empty_batch"
   ],
   "note": "The empty list raises IndexError. Row data are padded to the widest data, which by C41 is wider than the lengths say."
  },
  {
   "property": "C49",
   "status": "partial",
   "theorems": [
    "C49_pad_then_unpad",
    "C49_pad_chunks",
    "C49_pad_chunks_rejects",
    "C49_rebatch_partial",
    "C49_unpad",
    "C49_chunk_indices_dropped_refuted"
   ],
   "note": "Sequences and chunks survive padding and unpadding; C49_chunk_indices_dropped_refuted: pad_stream_tensor drops chunk indices, so re-batching is proved for everything else (C49_rebatch_partial)."
  },
  {
   "property": "C50",
   "status": "partial",
   "theorems": [
    "C50_mask_given_width",
    "C50_mask_width_inferred",
    "C50_rejects",
    "C50_zero_width_refuted"
   ],
   "note": "Proved for every max_len except 0, which the code treats as not given (C50_zero_width_refuted)."
  },
  {
   "property": "C51",
   "status": "proved",
   "theorems": [
    "C51_end_to_end"
   ],
   "note": ""
  },
  {
   "property": "C52",
   "status": "partial",
   "theorems": [
    "C52_mask_partial",
    "C52_mask_exact",
    "C52_nothing",
    "C52_guards_refuted",
    "C52_chunk_indices_refuted",
    "C52_one_row",
    "C52_one_column",
    "C52_single_entry",
    "C52_wrong_size"
   ],
   "note": "Proved for masks that select real steps only, no empty streams and no ending stream of length one; exact characterisation without these guards on the selection (C52_mask_exact); the guards are shown necessary, and dropping a stream while chunk indices are present always raises IndexError. Masks of one row, one column or one entry and masks of wrong sizes are covered by C52_one_row, C52_one_column, C52_single_entry and C52_wrong_size."
  },
  {
   "property": "C53",
   "status": "partial",
   "theorems": [
    "C53_computed",
    "C53_recorded",
    "C53_transpose_refuted",
    "C53_broadcast_refuted",
    "C53_pool_refuted"
   ],
   "note": "Proved for every computation built from the operations of C14-C23, C54, squeeze(), None, integer tensors and masks (C58) and element-wise functions of the default, valid, recoupling and in-place rules, under their argument conditions (sound time index, ascending index_select along length, pieces in recorded order when joined along length, equal metadata when joined along another dimension, a gather index that does not depend on time, element-wise results no larger than the streams). Refuted for torch.transpose, for a plain operand larger than the batch, and for unlisted functions such as max_pool1d. take, scatter and conv1d are not among the operations; values only, not views: an in-place function changes other tensors that share storage."
  },
  {
   "property": "C54",
   "status": "partial",
   "theorems": [
    "C54_gather",
    "C54_take_along_dim",
    "C54_refuses",
    "C54_entries",
    "C54_sizes",
    "C54_broadcast_batch_refuted",
    "C54_broadcast_length_refuted",
    "C54_stream_index_refuted",
    "C54_no_stream_refuted"
   ],
   "note": "Proved for gather with every index torch accepts (except that no stream is kept while the length is cut, where the call fails, refuted) and for take_along_dim with an index of full batch size and length; refusal along batch and length proved. Refuted: take_along_dim with an index broadcast along batch or length; a StreamTensor as index."
  },
  {
   "property": "C55",
   "status": "partial",
   "theorems": [
    "C55_take_partial",
    "C55_lengths_refuted",
    "C55_one_step_refuted",
    "C55_one_step_name_refuted",
    "C55_missing_dimension_refuted",
    "C55_other_ranks_refuted",
    "C55_negative_refuted"
   ],
   "note": "Values and ids are proved for every successful call. Refuted: lengths, the joined name, calls for a single step of a single stream, tensors without batch or length dimension. Index tensors of any rank but one and negative indices never give a result (C55_other_ranks_refuted, C55_negative_refuted)."
  },
  {
   "property": "C56",
   "status": "partial",
   "theorems": [
    "C56_scatter",
    "C56_no_mixing",
    "C56_falls_back",
    "C56_entries",
    "C56_sizes",
    "C56_no_stream",
    "C56_negative_refuted",
    "C56_chunks_refuted",
    "C56_different_refuted",
    "C56_plain_input_refuted"
   ],
   "note": "Proved for streams without chunk indices along other dimensions and for the fallback along batch and length counted from the front. Refuted: negative batch or length dimension, chunk indices, different metadata, plain input of other sizes."
  },
  {
   "property": "C57",
   "status": "proved",
   "theorems": [
    "C57_decouple",
    "C57_nothing_left",
    "C57_nothing_missed"
   ],
   "note": "For every nested value; containers whose constructor does not take a generator are outside the model."
  },
  {
   "property": "C58",
   "status": "partial",
   "theorems": [
    "C58_restricts",
    "C58_accepted",
    "C58_mask",
    "C58_mask_alone",
    "C58_mask_unnamed_refuted",
    "C58_ints",
    "C58_ints_alone"
   ],
   "note": "Proved for masks of two or more named dimensions after any ints and slices, for integer tensors of any rank >= 1 among any ints and slices, and that everything with more lists or tensors fails; time indices as in C16. Refuted: unnamed dimensions under a mask always raise TypeError. Where torch versions differ in what follows a mask the model is undefined. C58_ints_alone: an integer tensor on its own is the same as in a tuple."
  },
  {
   "property": "C59",
   "status": "partial",
   "theorems": [
    "C59_nones_last",
    "C59_only_nones",
    "C59_none_first_refuted",
    "C59_dots_last",
    "C59_dots_apart_refuted",
    "C59_dots_apart_count"
   ],
   "note": "Proved for None after all other items (any number), for expressions of None only, and for Ellipsis next to each other at the end. Refuted: None before other items shifts names and metadata; two Ellipsis apart from each other. C59_dots_apart_count: two Ellipsis apart give no result unless each stands for one dimension."
  },
  {
   "property": "C60",
   "status": "partial",
   "theorems": [
    "C60_division",
    "C60_strided",
    "C60_long_refuted"
   ],
   "note": "Proved for lengths and strides up to 2^24. Refuted beyond: every length between 2^24 and 2^25 that is 1 modulo 4 loses its last step when halved."
  },
  {
   "property": "C61",
   "status": "partial",
   "theorems": [
    "C61_streams",
    "C61_pair_partial",
    "C61_steps_partial",
    "C61_list_of_ints",
    "C61_mask",
    "C61_commute_partial",
    "C61_commute_refuted",
    "C61_other_sequences_refuted",
    "C61_refused"
   ],
   "note": "Proved for every kind of index that C16 calls sound. Commutation holds for steps counted from the start and is refuted for negative steps, strides and empty streams. Refuted: sequences of one or of three or more items that are not all ints return None without an error. Lists of bool are not modelled (see C01)."
  },
  {
   "property": "C62",
   "status": "partial",
   "theorems": [
    "C62_repr",
    "C62_single_refuted",
    "C62_all_ids",
    "C62_shortened_text",
    "C62_fails_iff",
    "C62_long_id_refuted"
   ],
   "note": "Proved for two or more streams. Refuted for a single stream with an id of more than 80 characters. The text itself: C62_all_ids, C62_shortened_text, C62_fails_iff (fails exactly for one id of more than 80 characters); the last id of a shortened text is quoted twice."
  },
  {
   "property": "C63",
   "status": "partial",
   "theorems": [
    "C63_split_datasets",
    "C63_names_distinct",
    "C63_names_refuted",
    "C63_many_workers_refuted",
    "C63_no_workers"
   ],
   "note": "Proved for positive batch size and max_workers with at most 52 datasets; without workers any example makes the call fail. Refuted: from 27 workers on names repeat, from 53 on the call fails."
  },
  {
   "property": "C64",
   "status": "partial",
   "theorems": [
    "C64_delivers",
    "C64_drop_last",
    "C64_split_then_load",
    "C64_no_streams",
    "C64_full_batches_refuted"
   ],
   "note": "Proved for datasets of positive batch size that do not drop themselves, as split_datasets makes them, with and without drop_last of the loader, and for split_datasets and loader together. Refuted: drop_last leaves batches smaller than the batch size."
  },
  {
   "property": "C65",
   "status": "partial",
   "theorems": [
    "C65_as_values_partial",
    "C65_as_values_padded_partial",
    "C65_caller_unaltered",
    "C65_buffer_is_callers",
    "C65_reuse_refuted",
    "C65_memory_bounded_refuted"
   ],
   "note": "Proved for kernels wider than one column and callers who, after a call that neither prepends nor pads, write to its tensor only when every stream going on has been given its next chunk; the module never writes to the caller's tensors. Refuted: reusing one tensor for successive chunks gives wrong output; the memory kept by a buffer is not bounded."
  },
  {
   "property": "C66",
   "status": "partial",
   "theorems": [
    "C66_fits",
    "C66_rejects",
    "C66_lengths_possible",
    "C66_flags_possible",
    "C66_full_length_refuted"
   ],
   "note": "Proved for all sizes, names and draws, with the binary32 product; lengths below the size all occur up to 2^23. Refuted: the full length can never be drawn, so for one step all streams are empty."
  },
  {
   "property": "C67",
   "status": "partial",
   "theorems": [
    "C67_rule",
    "C67_rule_exact",
    "C67_continuing_partial",
    "C67_chain_partial",
    "C67_second_branch_refuted",
    "C67_copy_refuted",
    "C67_unread_view_refuted",
    "C67_failed_call_refuted",
    "C67_caller_data_refuted"
   ],
   "note": "An exact rule tells which variables a call spoils; programs that do not use a spoilt variable are right, in particular sequential models and every network on batches with a continuing stream (kernels wider than one column). Refuted otherwise: the second branch on a starting batch, clones (they share metadata), unread views, and the input of a failed call."
  },
  {
   "property": "C68",
   "status": "partial",
   "theorems": [
    "C68_no_rule",
    "C68_listed",
    "C68_accepts",
    "C68_over_partial",
    "C68_over_keepdim_partial",
    "C68_along_partial",
    "C68_length_exact",
    "C68_chunks_exact",
    "C68_batch_exact",
    "C68_over_streams_refuted",
    "C68_over_streams_keepdim_refuted",
    "C68_softmax_refuted"
   ],
   "note": "Proved for all functions along and over dimensions other than batch and length, and exactly characterised otherwise: along the length dimension it holds for causal functions only, along the batch dimension for value-by-value functions only. Refuted: reductions over batch, length or everything keep metadata that do not fit; softmax along the length dimension, on the list of valid functions, counts padding. C68_chunks_exact: on a stream that comes in chunks the results are those for the whole stream exactly for functions that compute value by value."
  },
  {
   "property": "C69",
   "status": "partial",
   "theorems": [
    "C69_round_trip",
    "C69_parts",
    "C69_accepts",
    "C69_stream_tensor_accepts",
    "C69_fits_partial",
    "C69_unchecked_refuted",
    "C69_single_none_refuted",
    "C69_frexp",
    "C69_quantize_partial",
    "C69_quantize_mixed_refuted",
    "C69_masked_select_partial",
    "C69_masked_select_refuses",
    "C69_masked_select_refuted",
    "C69_method_refuted"
   ],
   "note": "Round trip, exact acceptance of names, frexp, quantising and masked_select with plain masks are proved. Refuted: metadata are never compared with the data; names=(None,) is accepted for every rank; a tuple with a plain tensor cannot be quantised; a stream tensor as mask always fails; the method masked_select keeps metadata that do not fit."
  },
  {
   "property": "C70",
   "status": "partial",
   "theorems": [
    "C70_value",
    "C70_unambiguous",
    "C70_unit",
    "C70_unit_given",
    "C70_monotone",
    "C70_length_partial",
    "C70_length_refuted",
    "C70_number",
    "C70_summary",
    "C70_no_repeats",
    "C70_warning_refuted"
   ],
   "note": "Value, unit, monotonicity, number of iterations and summary are proved, for exact rational numbers (double rounding is not modelled). The documented length holds between a nanosecond and 10^precision seconds only and is refuted outside; the warning is also given when all times are zero."
  },
  {
   "property": "C71",
   "status": "partial",
   "theorems": [
    "C71_loads",
    "C71_attributes",
    "C71_round_trip_partial",
    "C71_empty_refuted",
    "C71_final_newline_refuted",
    "C71_two_files_refuted",
    "C71_missing",
    "C71_scraper_refuted",
    "C71_scraper_elsewhere",
    "C71_found",
    "C71_classes",
    "C71_path_partial",
    "C71_path_refuted",
    "C71_repository"
   ],
   "note": "Loading, the round trip for lists that are not empty, the classes and the lists of the repository are proved. Refuted: an empty list or a final line end cannot be loaded, two files for one list are chosen between by directory order, the script cannot run in its own directory, and a path with backslashes is not understood."
  },
  {
   "property": "C72",
   "status": "partial",
   "theorems": [
    "C72_suppressed",
    "C72_enabled",
    "C72_others",
    "C72_again_refuted",
    "C72_bounded",
    "C72_restored_partial",
    "C72_restored_refuted",
    "C72_unhandled",
    "C72_place_refuted",
    "C72_silent_refuted",
    "C72_fallback",
    "C72_reason",
    "C72_result",
    "C72_text"
   ],
   "note": "Silencing, showing once, other categories, growth of the filters, results and exactly when flatten, scatter and unknown functions warn are proved. Refuted: filters of the program for these warnings are not restored, other warnings are shown again, the place named is always a line of the package so a second place in a program gets no warning, and functions on the decouple list return plain tensors without a warning."
  },
  {
   "property": "C73",
   "status": "partial",
   "theorems": [
    "C73_random_chunks",
    "C73_random_chunks_end",
    "C73_batches_deal_all_chunks",
    "C73_batches_end",
    "C73_every_schedule_succeeds_iff",
    "C73_sizes_after_a_convolution",
    "C73_wide_enough",
    "C73_program",
    "C73_enough_draws",
    "C73_wav2letter",
    "C73_short_last_chunk_refuted",
    "C73_silent_loss_refuted"
   ],
   "note": "Proved: the random chunks, the batches, when both loops end, the outputs whenever no chunk becomes empty, and this is the exact condition for every batching to succeed. For the sizes of Wav2Letter it holds if every last chunk has at least 115 samples. Refuted without it: a last chunk of one sample makes the program raise or, in another batching, lose the last columns of the output silently. C88 has the same program on tensors."
  },
  {
   "property": "C74",
   "status": "partial",
   "theorems": [
    "C74_chunk_size",
    "C74_never_far",
    "C74_whole_frames",
    "C74_file",
    "C74_no_frames",
    "C74_tie_refuted",
    "C74_half_frames_refuted"
   ],
   "note": "Proved: three roundings change the value by at most 2^-51 of it; the chunk size is the exact one unless the exact value lies that close to halfway between two integers; whole numbers of frames come out exactly; then C40 holds for the file as computed. Refuted halfway: 0.35 s at 22050 Hz gives 7717 frames instead of 7718."
  },
  {
   "property": "C75",
   "status": "partial",
   "theorems": [
    "C75_exact",
    "C75_samples",
    "C75_fields",
    "C75_stream_tensors_refuted",
    "C75_stream_tensor_refuted",
    "C75_metadata_refuted",
    "C75_collector_refuted",
    "C75_copy",
    "C75_copy_refuted"
   ],
   "note": "Proved: exactly the values without StreamTensor, metadata and named tensor in any part arrive, unchanged; StreamSamples do; a StreamTensor without names can be copied. Refuted: nothing with a StreamTensor in it can be saved, metadata cannot be loaded, a collector with an entry cannot be saved, copy.copy of a StreamTensor with names fails."
  },
  {
   "property": "C76",
   "status": "partial",
   "theorems": [
    "C76_delivers",
    "C76_samples",
    "C76_lost_refuted",
    "C76_unreadable"
   ],
   "note": "Proved for every interleaving and positive prefetch factor, with progress and a bound on the number of steps, for items that survive pickling, in particular lists of samples. Refuted for items that cannot be pickled: none arrives, the iteration ends without an exception or waits for ever."
  },
  {
   "property": "C77",
   "status": "partial",
   "theorems": [
    "C77_no_worker",
    "C77_worker",
    "C77_stream_tensors_refuted",
    "C77_drop_last_refuted",
    "C77_list_refuted",
    "C77_timeout_refuted",
    "C77_persistent_refuted",
    "C77_workers_refused",
    "C77_prefetch_zero_refuted"
   ],
   "note": "Proved without worker, and with a worker for a single dataset and batches that survive pickling. Refuted: StreamTensor batches with a worker never arrive; drop_last is always refused; a list of datasets with a worker, a timeout, persistent workers and a prefetch factor of 0 always fail."
  },
  {
   "property": "C78",
   "status": "partial",
   "theorems": [
    "C78_exact",
    "C78_misunderstood_refuted"
   ],
   "note": "Proved: exactly nine of the 42 overrides do not understand all documented calls; the other 33 take every documented call and give every argument its documented meaning. Refuted for permute(input=), x.split(split_size=), unbind(input=), frexp(out=), take(index=), take_along_dim without dim, and x.scatter_reduce_(d, index, src, reduce) by position."
  },
  {
   "property": "C79",
   "status": "partial",
   "theorems": [
    "C79_stack",
    "C79_ones",
    "C79_misfit",
    "C79_empty",
    "C79_no_dimension",
    "C79_columns",
    "C79_one_channel_refuted",
    "C79_negative_dim_refuted"
   ],
   "note": "C79_stack for tensors that agree except in dim. Refuted: sizes of other dimensions may be 1 where the first tensor has more, and the tensor is then copied (C79_one_channel_refuted, all cases in C79_ones and C79_misfit); a dim below -rank is accepted (C79_negative_dim_refuted). C79_columns connects this with the collate model of C48."
  },
  {
   "property": "C80",
   "status": "partial",
   "theorems": [
    "C80_pads",
    "C80_well_formed",
    "C80_unpad",
    "C80_pad_then_unpad",
    "C80_full",
    "C80_rebatch",
    "C80_names_refused",
    "C80_columns",
    "C80_lengths_forgotten_refuted",
    "C80_other_order_refuted"
   ],
   "note": "All of it proved for pad_chunks, pad_full_sequence and unpad_sequence. pad_stream_tensor forgets lengths shorter than the tensor and looks only at the names of the first stream (two refutations). C80_columns connects this with the row model of C49."
  },
  {
   "property": "C81",
   "status": "proved",
   "theorems": [
    "C81_rounds",
    "C81_ends",
    "C81_merged"
   ],
   "note": "C81_rounds over all interleavings, with an independent description of the rounds and of the end (WorkersManySpec.v); C81_ends reads it off for parts that raise nothing; C81_merged connects it with the loader of C47. Hypothesis: items can be sent (C76_samples proves it of lists of samples)."
  },
  {
   "property": "C82",
   "status": "proved",
   "theorems": [
    "C82_full_groups",
    "C82_loader",
    "C82_loader_full",
    "C82_batch_size_refuted"
   ],
   "note": "C82_full_groups for the generator, C82_loader and C82_loader_full for the loader. C82_batch_size_refuted: with several workers the groups may stay smaller than batch_size, because the code takes the length of the first batch for the batch size."
  },
  {
   "property": "C83",
   "status": "partial",
   "theorems": [
    "C83_streaming",
    "C83_never_fails",
    "C83_plain_module",
    "C83_call",
    "C83_int_arguments_refuted",
    "C83_refused_padding",
    "C83_layout_refuted",
    "C83_nan_padding_refuted",
    "C83_requires"
   ],
   "note": "C83_streaming, C83_never_fails, C83_plain_module, C83_call for modules with tuple arguments and inputs (B, any, L) whose output masks to zero. Missing / false in full: torch.conv1d called with an int dilation fails (C83_int_arguments_refuted), padding \"same\" is refused (C83_refused_padding), other orders of dimensions are convolved along the wrong one (C83_layout_refuted), nan in the padding survives the mask (C83_nan_padding_refuted). Padding modes other than zeros are not modelled. C83_requires: what any successful call has been given."
  },
  {
   "property": "C84",
   "status": "partial",
   "theorems": [
    "C84_streaming",
    "C84_plain_network",
    "C84_equals_plain_network",
    "C84_call",
    "C84_nonzero_padding_refuted",
    "C84_succeeds_iff",
    "C84_long_chunks"
   ],
   "note": "C84_streaming, C84_equals_plain_network, C84_plain_network, C84_call. C84_succeeds_iff and C84_long_chunks say when all calls succeed. Needed: padding zero in front of every convolution (C84_nonzero_padding_refuted: sigmoid in front of a padded convolution gives wrong values at the end of shorter rows), stride at most the kernel span, chunks that do not vanish inside the network (C27_vanishing_chunk_refuted). Residual connections are C86. Missing: layers that mix time steps other than convolutions."
  },
  {
   "property": "C85",
   "status": "partial",
   "theorems": [
    "C85_sets",
    "C85_last_wins",
    "C85_unsupported_rules",
    "C85_overrides_missing_refuted"
   ],
   "note": "C85_sets, C85_last_wins, C85_unsupported_rules. False for the overrides: the set is made before they are registered, so all but one are missing from it and counted as unsupported (C85_overrides_missing_refuted). The getters are not enumerated."
  },
  {
   "property": "C86",
   "status": "partial",
   "theorems": [
    "C86_whole_streams",
    "C86_first_chunks",
    "C86_cut_streams_refused",
    "C86_lag",
    "C86_residual_refuted"
   ],
   "note": "True for whole streams and for kernels of width one (C86_whole_streams). With padding a stream cut into chunks never gets to its end (C86_cut_streams_refused) and streams that start together are refused unless the tensor has padding + 1 columns (C86_first_chunks); chunks in the middle raise no error, but the convolution is added late by the padding (C86_lag, C86_residual_refuted). Tensors without chunk indices, except in C86_first_chunks."
  },
  {
   "property": "C87",
   "status": "proved",
   "theorems": [
    "C87_align_to",
    "C87_refused",
    "C87_well_formed",
    "C87_single",
    "C87_back"
   ],
   "note": "C87_align_to, C87_refused, C87_well_formed, C87_single, C87_back. An Ellipsis or None among the names asked for is not modelled."
  },
  {
   "property": "C88",
   "status": "partial",
   "theorems": [
    "C88_program",
    "C88_columns",
    "C88_wav2letter",
    "C88_short_last_chunk_refuted"
   ],
   "note": "C88_program: true whenever no chunk becomes empty inside the network; C88_columns: the program on tensors and the program of C73 on columns need the same random numbers, have the same outputs, and raise together. C88_wav2letter for the sizes of Wav2Letter with last chunks of at least 115 samples; C88_short_last_chunk_refuted otherwise. Each id occurs once; strides smaller than the kernel span."
  },
  {
   "property": "C89",
   "status": "proved",
   "theorems": [
    "C89_indices",
    "C89_network_indices",
    "C89_collected",
    "C89_in_phase",
    "C89_whole_streams",
    "C89_staggered_refuted"
   ],
   "note": "C89_indices (one convolution, exact), C89_network_indices, C89_collected (both directions), C89_in_phase and C89_whole_streams (cases in which nothing is lost). C89_staggered_refuted: indices on all input batches do not suffice."
  },
  {
   "property": "C90",
   "status": "partial",
   "theorems": [
    "C90_loop",
    "C90_groups",
    "C90_short_files",
    "C90_long_file_refuted",
    "C90_overlapping_batches_refuted"
   ],
   "note": "C90_short_files: true of the loader as it is if every file is a single chunk. C90_groups: true of batches in groups whose samples carry their own chunks. C90_long_file_refuted: false for files of several chunks, because every sample carries the whole audio (C41). C90_overlapping_batches_refuted: even with own chunks, batches in which files start while others go on make the collector raise (C89)."
  },
  {
   "property": "C91",
   "status": "partial",
   "theorems": [
    "C91_worker_ids",
    "C91_prefetch",
    "C91_prefetch_list_refuted",
    "C91_startable",
    "C91_negative_refuted"
   ],
   "note": "C91_worker_ids and C91_startable hold for all arguments (the refusals come when the iteration begins). C91_prefetch: for one dataset. C91_prefetch_list_refuted: for a list of datasets the factor is lost. C91_negative_refuted: a negative num_workers, which torch refuses, starts one worker."
  },
  {
   "property": "C92",
   "status": "partial",
   "theorems": [
    "C92_elsewhere",
    "C92_batch",
    "C92_metadata",
    "C92_wrong_size",
    "C92_same_as_mask_refuted"
   ],
   "note": "C92_elsewhere: true of all dimensions but batch and length. C92_batch: the exact result in the batch dimension, which is never the one of the BoolTensor (ValueError, IndexError, or all streams renamed to the second). C92_same_as_mask_refuted: false there. Missing: lists of bool along the length dimension (numba on arrays of bool, not modelled)."
  },
  {
   "property": "C93",
   "status": "partial",
   "theorems": [
    "C93_hooks",
    "C93_one_place",
    "C93_shared_refuted",
    "C93_refused",
    "C93_plain_unchanged",
    "C93_after_refusal_refuted",
    "C93_switch",
    "C93_switch_exact",
    "C93_switch_last",
    "C93_failed_switch_refuted",
    "C93_applied_twice_refuted",
    "C93_applied_twice_values_refuted"
   ],
   "note": "C93_hooks: the exact number of hooks is the number of ways to the object. C93_one_place: true for objects with one way. C93_refused: which models are refused. C93_switch: on which models online succeeds. C93_plain_unchanged: plain tensors offline are treated as before, also after a refusal. C93_shared_refuted, C93_after_refusal_refuted, C93_applied_twice_refuted, C93_applied_twice_values_refuted: false for objects in two blocks, for parts of a refused model patched again and for objects applied twice in a forward. Missing: the exact output of a convolution applied twice."
  },
  {
   "property": "C94",
   "status": "partial",
   "theorems": [
    "C94_succeeds",
    "C94_chunk",
    "C94_shape",
    "C94_stream_partial",
    "C94_lengths_refuted",
    "C94_conv_behind_refuted",
    "C94_overlap_refuted",
    "C94_odd_chunks_refuted"
   ],
   "note": "C94_succeeds, C94_chunk: when a call succeeds and which columns come from the real data of a chunk. C94_stream_partial: right values for windows that do not overlap and chunks of whole windows. C94_lengths_refuted: the metadata never fit. C94_conv_behind_refuted: a convolution behind the layer keeps no columns. C94_overlap_refuted, C94_odd_chunks_refuted: other windows and chunks give other columns or fail. Missing: padding, dilation and ceil_mode of the layer."
  }
 ]
}