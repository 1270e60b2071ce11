{
 "claims": [
  {
   "property": "C01",
   "status": "proved",
   "theorems": [
    "C01_alloc_never_overlaps_live",
    "C01_alloc_total"
   ],
   "note": ""
  },
  {
   "property": "C02",
   "status": "proved",
   "theorems": [
    "C02_free_space_conserved"
   ],
   "note": ""
  },
  {
   "property": "C03",
   "status": "proved",
   "theorems": [
    "C03_free_list_canonical"
   ],
   "note": ""
  },
  {
   "property": "C04",
   "status": "proved",
   "theorems": [
    "C04_best_fit",
    "C04_file_never_shrinks"
   ],
   "note": ""
  },
  {
   "property": "C05",
   "status": "proved",
   "theorems": [
    "C05_header_roundtrip",
    "C05_header_bytes_roundtrip"
   ],
   "note": ""
  },
  {
   "property": "C06",
   "status": "proved",
   "theorems": [
    "C06_header_rejects_wrong_length",
    "C06_header_rejects_oversized_fields"
   ],
   "note": ""
  },
  {
   "property": "C07",
   "status": "proved",
   "theorems": [
    "C07_clean_header_is_persisted",
    "C07_assignment",
    "C07_assignment_of_integer",
    "C07_new_header_accepts",
    "C07_negative_values_rejected",
    "C07_immutable_header_never_changes",
    "C07_main_page_reads_back",
    "C07_layout_page_reads_back",
    "C07_unchanged_is_clean",
    "C07_uuid"
   ],
   "note": ""
  },
  {
   "property": "C08",
   "status": "proved",
   "theorems": [
    "C08_check_compatible_exact"
   ],
   "note": ""
  },
  {
   "property": "C09",
   "status": "proved",
   "theorems": [
    "C09_entry_roundtrip",
    "C09_entry_serialisable",
    "C09_parse_is_local",
    "C09_entry_at_offset"
   ],
   "note": "for urls and titles without NUL characters, which the file format cannot represent"
  },
  {
   "property": "C10",
   "status": "proved",
   "theorems": [
    "C10_entry_size_exact"
   ],
   "note": ""
  },
  {
   "property": "C11",
   "status": "partial",
   "theorems": [
    "C11_refuted",
    "C11_kind_preserved_partial",
    "C11_parsed_kind_consistent_partial"
   ],
   "note": "false of the code for mimetype index 65535 (C11_refuted); proved for every other index"
  },
  {
   "property": "C12",
   "status": "proved",
   "theorems": [
    "C12_mimetype_roundtrip"
   ],
   "note": "for non-empty NUL-free mimetypes, the only ones the format can represent"
  },
  {
   "property": "C13",
   "status": "partial",
   "theorems": [
    "C13_refuted",
    "C13_mimetype_size_partial"
   ],
   "note": "false of the code for the empty list (C13_refuted), proved for all others"
  },
  {
   "property": "C14",
   "status": "proved",
   "theorems": [
    "C14_index_stable",
    "C14_no_duplicates",
    "C14_register",
    "C14_register_succeeds",
    "C14_clean_is_persisted",
    "C14_flush",
    "C14_get",
    "C14_dirty_when_changed"
   ],
   "note": ""
  },
  {
   "property": "C15",
   "status": "proved",
   "theorems": [
    "C15_pointerlist_roundtrip",
    "C15_bytes_roundtrip",
    "C15_serialisable_iff_fits",
    "C15_rejects_partial_pointers",
    "C15_from_file"
   ],
   "note": ""
  },
  {
   "property": "C16",
   "status": "proved",
   "theorems": [
    "C16_get_index",
    "C16_get",
    "C16_has",
    "C16_find_first_greater_equals",
    "C16_search_terminates"
   ],
   "note": ""
  },
  {
   "property": "C17",
   "status": "proved",
   "theorems": [
    "C17_history",
    "C17_add",
    "C17_add_succeeds",
    "C17_remove",
    "C17_check_sorted_exact"
   ],
   "note": ""
  },
  {
   "property": "C18",
   "status": "proved",
   "theorems": [
    "C18_mass_update",
    "C18_mass_update_total"
   ],
   "note": ""
  },
  {
   "property": "C19",
   "status": "partial",
   "theorems": [
    "C19_refuted",
    "C19_iter_values_refuted",
    "C19_iter_values_yields_nothing",
    "C19_index_access_partial",
    "C19_iteration_partial",
    "C19_lookup_partial",
    "C19_memory_reverse_lookup_partial"
   ],
   "note": "on-disk get_by_pointer and iter_values differ (C19_refuted, C19_iter_values_refuted); index access, iteration and key lookup proved equal"
  },
  {
   "property": "C20",
   "status": "partial",
   "theorems": [
    "C20_refuted",
    "C20_refuted_silently",
    "C20_counter_roundtrip_partial",
    "C20_counter_bytes_partial"
   ],
   "note": "false for mimetypes with a \";\" not followed by a space (C20_refuted, C20_refuted_silently); proved for all others"
  },
  {
   "property": "C21",
   "status": "partial",
   "theorems": [
    "C21_refuted",
    "C21_refuted_to_redirect",
    "C21_refuted_cached",
    "C21_counts_exact_partial",
    "C21_counts_stay_exact_partial",
    "C21_reinit_exact",
    "C21_never_negative",
    "C21_decrement"
   ],
   "note": "false for redirect<->content updates and for mimetype changes of cached entry objects (refuted); proved for all other histories"
  },
  {
   "property": "C22",
   "status": "proved",
   "theorems": [
    "C22_utf8_decode_encode",
    "C22_utf8_encode_decode",
    "C22_utf8_order",
    "C22_utf8_prefix",
    "C22_utf8_total"
   ],
   "note": ""
  },
  {
   "property": "C23",
   "status": "proved",
   "theorems": [
    "C23_infobyte_roundtrip",
    "C23_known_parses",
    "C23_unknown_rejected"
   ],
   "note": ""
  },
  {
   "property": "C24",
   "status": "partial",
   "theorems": [
    "C24_refuted",
    "C24_reader_returns_stream_partial",
    "C24_reader_within_stream",
    "C24_compressed_size",
    "C24_passthrough",
    "C24_passthrough_no_end",
    "C24_zlib_partial",
    "C24_zstd_partial",
    "C24_zstd_end_refuted"
   ],
   "note": "Proved for every decompressor meeting the contract, every file and every call sequence with reads of at least one byte (any sizes, buffers, skips, reseeks); zlib wrapper in full, passthrough and zstandard wrappers for calls within the stream. Refuted: read(0) raises IOError; reading a zstandard stream to its end can fail."
  },
  {
   "property": "C25",
   "status": "proved",
   "theorems": [
    "C25_stored_blobs_read_back",
    "C25_written_cluster_reads_back",
    "C25_uncompressed"
   ],
   "note": "for every cluster class, every decompressor meeting the contract and every call sequence; from writing to reading for every list of blobs"
  },
  {
   "property": "C26",
   "status": "partial",
   "theorems": [
    "C26_leak",
    "C26_refuted",
    "C26_reads_are_slices_partial",
    "C26_in_memory_all_ranges",
    "C26_read_blob_all_ranges"
   ],
   "note": "Refuted: iter_read_blob with a start beyond the end of the blob yields bytes of other blobs (C26_refuted, C26_leak). Proved: all ranges starting within the blob for both ways of reading; all ranges of read_blob when the compression knows its end; all ranges for in-memory clusters."
  },
  {
   "property": "C27",
   "status": "proved",
   "theorems": [
    "C27_sizes_agree_with_written"
   ],
   "note": "after any edits whatsoever, also failing ones"
  },
  {
   "property": "C28",
   "status": "proved",
   "theorems": [
    "C28_width_of_pointers"
   ],
   "note": ""
  },
  {
   "property": "C29",
   "status": "partial",
   "theorems": [
    "C29_edits_like_list_edits_partial",
    "C29_wrong_blob",
    "C29_refuted",
    "C29_wrong_count"
   ],
   "note": "Refuted: setting, emptying or appending at an index that was removed before (C29_refuted, C29_wrong_count). Proved: removals in any order, then every history that does not touch removed indices again."
  },
  {
   "property": "C30",
   "status": "proved",
   "theorems": [
    "C30_linked_list"
   ],
   "note": "for histories naming elements that are in the list; a removed element object whose parent was not reset can still corrupt the list"
  },
  {
   "property": "C31",
   "status": "proved",
   "theorems": [
    "C31_lru_most_recent",
    "C31_lru_refines_recency_list"
   ],
   "note": "max_size > 0; a plain recency list is refined for every history"
  },
  {
   "property": "C32",
   "status": "partial",
   "theorems": [
    "C32_lru_get",
    "C32_top_get",
    "C32_noop_get",
    "C32_push_cached",
    "C32_push_tells",
    "C32_hybrid_get_partial",
    "C32_hybrid_missing",
    "C32_refuted"
   ],
   "note": "proved for LastAccessCache, TopAccessCache and NoOpCache; false of HybridCache (C32_refuted), for which the absence of foreign values, the KeyError for keys it does not have and what push returns are proved"
  },
  {
   "property": "C33",
   "status": "partial",
   "theorems": [
    "C33_lru_leave",
    "C33_top_leave",
    "C33_hybrid_leave_partial",
    "C33_refuted"
   ],
   "note": "proved for LastAccessCache and TopAccessCache; false of HybridCache (C33_refuted), for which it is proved that nothing leaves unreported and only cached keys are reported (C33_hybrid_leave_partial); a re-push under a cached key replaces the value without a call in every cache"
  },
  {
   "property": "C34",
   "status": "partial",
   "theorems": [
    "C34_lru_bounded",
    "C34_top_bounded",
    "C34_hybrid_bounded_partial",
    "C34_refuted"
   ],
   "note": "proved for LastAccessCache and TopAccessCache; HybridCache ignores top_cache_size (C34_refuted)"
  },
  {
   "property": "C35",
   "status": "partial",
   "theorems": [
    "C35_top_evicts_tail_partial",
    "C35_top_refines_list",
    "C35_refuted"
   ],
   "note": "false of the code (C35_refuted); the evicted element is the list tail and has fewer accesses than the newcomer"
  },
  {
   "property": "C36",
   "status": "partial",
   "theorems": [
    "C36_lru_unlocked",
    "C36_top_unlocked_partial",
    "C36_refuted"
   ],
   "note": "proved for LastAccessCache; false of TopAccessCache.push (C36_refuted)"
  },
  {
   "property": "C37",
   "status": "proved",
   "theorems": [
    "C37_added_entry_is_found",
    "C37_added_content_is_equal",
    "C37_other_lookups_unchanged",
    "C37_writing_succeeds",
    "C37_only_failure",
    "C37_depth"
   ],
   "note": "for every new entry, including redirects; the write itself can only fail by the assertion of line 981, which compares a redirect index with a file offset (C37_only_failure, C37_writing_succeeds); additions keep the archive consistent, so the theorems hold along every history of additions"
  },
  {
   "property": "C38",
   "status": "proved",
   "theorems": [
    "C38_redirects_survive_additions",
    "C38_no_new_redirects"
   ],
   "note": "including that no redirect changes which target it has (both directions)"
  },
  {
   "property": "C39",
   "status": "partial",
   "theorems": [
    "C39_in_place_partial",
    "C39_moved_partial",
    "C39_writing_succeeds_partial",
    "C39_refuted"
   ],
   "note": "Refuted: renaming an entry without passing another entry retargets the redirects to it (C39_refuted); resizing the first entry raises (C39_first_entry_raises). Proved: all edits in place, and all relocating edits satisfying the conditions of movable."
  },
  {
   "property": "C40",
   "status": "partial",
   "theorems": [
    "C40_additions_partial",
    "C40_edits_in_place_partial",
    "C40_edits_partial",
    "C40_defect",
    "C40_refuted"
   ],
   "note": "Refuted: adding an entry directly in front of the main page makes it the main page (C40_refuted, C40_defect gives the exact condition). Proved: all other additions; edits in place; relocating edits of other entries."
  },
  {
   "property": "C41",
   "status": "proved",
   "theorems": [
    "C41_articles",
    "C41_articles_sorted",
    "C41_entry_titles"
   ],
   "note": ""
  },
  {
   "property": "C42",
   "status": "partial",
   "theorems": [
    "C42_removal_partial",
    "C42_removal_succeeds_partial",
    "C42_refuted",
    "C42_removal_with_redirects_partial",
    "C42_interference_refuted"
   ],
   "note": "Refuted: removing a non-article in front of an article breaks the article list (C42_refuted); removing the first entry while a redirect leads to it raises. Even without articles, a redirect directly in front of its target makes removal end in EntryNotFound (C42_interference_refuted). Proved: removal of every entry that is an article or has no articles behind it, without redirects to it or with redirects under the conditions of `severable` (no chains, not the first entry, no interference)."
  },
  {
   "property": "C43",
   "status": "partial",
   "theorems": [
    "C43_adding_entries",
    "C43_editing_entries_partial",
    "C43_removing_entries_partial",
    "C43_writing_clusters",
    "C43_space_of_clusters",
    "C43_any_outcome_partial",
    "C43_any_removal",
    "C43_refuted"
   ],
   "note": "Refuted for entries (C43_refuted): after a rename to the url of a redirect, adding an entry overwrites the renamed page. Proved whatever the call returns or raises: write_entry of entries that can be represented and whose url is not taken (C43_any_outcome_partial), remove_entry of any url (C43_any_removal), write_cluster for every archive, edit history and outcome (C43_writing_clusters, C43_space_of_clusters)."
  },
  {
   "property": "C44",
   "status": "proved",
   "theorems": [
    "C44_interrupted_write",
    "C44_between_chunks"
   ],
   "note": "Every file that can be left behind by any prefix of the written data: all bytes in use, all clusters (also the one being written) and all entries are unchanged. The generator is run against the file as it was when the write began (see DESIGN)."
  },
  {
   "property": "C45",
   "status": "partial",
   "theorems": [
    "C45_numbers_partial",
    "C45_returned_number_partial",
    "C45_removal_succeeds",
    "C45_new_cluster_succeeds",
    "C45_wrong",
    "C45_refuted"
   ],
   "note": "Refuted as stated (C45_refuted): after a cluster was removed, rewriting another one without telling its number updates the placeholder, the cluster keeps its old content and its space is given away. Proved for histories in which clusters are rewritten telling their number, or without as long as nothing was removed."
  },
  {
   "property": "C46",
   "status": "partial",
   "theorems": [
    "C46_flush_then_open_partial",
    "C46_new_archive_partial",
    "C46_refuted",
    "C46_any_history_partial",
    "C46_any_new_partial",
    "C46_after_addition_partial",
    "C46_after_addition_new_partial"
   ],
   "note": "Refuted as stated (C46_refuted): an entry written again in its place with another title of the same length marks nothing as modified, so the next flush does nothing and the stored checksum is wrong. Proved for all archives that are changed by adding items, flushing and reopening in any order, from creation on or from any archive whose parts are in order (laid_out): opening gives the same header, mimetypes, pointer lists and main page, and the checksum is right. Also for every history of C65 (edits, contents, removals, links, main pages, in any order) that ends with a flush, provided that the archive is marked as modified before that flush or its checksum is right then (C46_any_history_partial, C46_any_new_partial). The first holds whenever an item was added since the last flush, whatever else was done (C46_after_addition_partial, C46_after_addition_new_partial). New archives: with a reservation for the mimetype list, as in the default policy."
  },
  {
   "property": "C47",
   "status": "proved",
   "theorems": [
    "C47_terminates",
    "C47_flush",
    "C47_add_then_flush",
    "C47_all_resolved",
    "C47_some_unresolved",
    "C47_order",
    "C47_finalize"
   ],
   "note": "For every set of buffered redirects, every order in which they were added and every consistent archive. Every redirect whose chain of targets can be followed to an existing entry is added, the others raise UnresolvedRedirect and stay buffered."
  },
  {
   "property": "C48",
   "status": "partial",
   "theorems": [
    "C48_items",
    "C48_size_partial",
    "C48_refuted"
   ],
   "note": "Every item is written exactly once, findable and readable; old entries, clusters and articles stay (proved for simple and mimetype based strategies in any combination, all limits). The size limit is exceeded by up to 4 bytes (C48_refuted; C48_size_partial proves the bound limit + 4). Items have distinct urls that are not in the archive yet; locks are not modelled."
  },
  {
   "property": "C49",
   "status": "partial",
   "theorems": [
    "C49_articles_partial",
    "C49_no_term_partial",
    "C49_entries_partial",
    "C49_refuted",
    "C49_complete_title_refuted"
   ],
   "note": "Refuted as stated: a term ending in U+10FFFF (or U+D7FF) raises (C49_refuted), and searching all entries for a complete namespace+title raises AssertionError because the likelihood exceeds 1 (C49_complete_title_refuted). Proved for all other terms and all archives."
  },
  {
   "property": "C50",
   "status": "partial",
   "theorems": [
    "C50_all_partial",
    "C50_range_partial",
    "C50_pages",
    "C50_refuted"
   ],
   "note": "Refuted as stated (C50_refuted): result numbers restart at 1 on every page of 20. Proved: every match exactly once, in order, for every start, page size and number of matches."
  },
  {
   "property": "C51",
   "status": "partial",
   "theorems": [
    "C51_groups_partial",
    "C51_each_url_once",
    "C51_no_url_twice",
    "C51_without_redirects",
    "C51_refuted"
   ],
   "note": "Refuted as stated (C51_refuted): for an archive without redirects the generator raises KeyError at its end. Proved for every archive with a redirect; that each url is yielded exactly once and grouping/order also hold without redirects (C51_without_redirects)."
  },
  {
   "property": "C52",
   "status": "partial",
   "theorems": [
    "C52_resolve_partial",
    "C52_result_partial",
    "C52_no_self_redirect",
    "C52_refuted"
   ],
   "note": "Refuted: cyclic redirects never resolve (C52_refuted). Proved: resolution returns the content entry at the end of the chain within as many steps as there are entries, or the chain never ends."
  },
  {
   "property": "C53",
   "status": "proved",
   "theorems": [
    "C53_metadata_keys"
   ],
   "note": ""
  },
  {
   "property": "C54",
   "status": "partial",
   "theorems": [
    "C54_refuted",
    "C54_terminates_iff_zero_partial",
    "C54_result_partial"
   ],
   "note": "false of the code at end of file, where the loop makes no progress (C54_refuted); exact termination condition proved"
  },
  {
   "property": "C55",
   "status": "proved",
   "theorems": [
    "C55_concurrent_registration",
    "C55_no_deadlock",
    "C55_every_call_answered"
   ],
   "note": ""
  },
  {
   "property": "C56",
   "status": "partial",
   "theorems": [
    "C56_refuted",
    "C56_own_number_refuted",
    "C56_one_at_a_time_partial",
    "C56_single_thread"
   ],
   "note": "Refuted (C56_refuted, C56_own_number_refuted): the counter is read and incremented without a lock, so two threads, or even one thread in two calls, get the same number. Proved for every schedule in which calls do not overlap, and for a single thread."
  },
  {
   "property": "C57",
   "status": "proved",
   "theorems": [
    "C57_dirty_propagates",
    "C57_old_size"
   ],
   "note": ""
  },
  {
   "property": "C58",
   "status": "partial",
   "theorems": [
    "C58_refuted",
    "C58_get_partial",
    "C58_has_partial",
    "C58_unregister_partial"
   ],
   "note": "false after unregistering the last interface of a type (C58_refuted); everything else proved"
  },
  {
   "property": "C59",
   "status": "proved",
   "theorems": [
    "C59_memory_blob_reads",
    "C59_memory_blob_all",
    "C59_memory_blob_read",
    "C59_entry_blob"
   ],
   "note": ""
  },
  {
   "property": "C60",
   "status": "proved",
   "theorems": [
    "C60_items_survive",
    "C60_new_archive"
   ],
   "note": "For every history of adding, flushing and reopening that ends with a flush: C60_items_survive (any archive in order), C60_new_archive (from creation on, with a reservation for the mimetype list). Urls of added items are new."
  },
  {
   "property": "C61",
   "status": "partial",
   "theorems": [
    "C61_accepted",
    "C61_is_article",
    "C61_storable_partial",
    "C61_rejected_partial",
    "C61_refuted"
   ],
   "note": "Refuted as stated: a rejected full_url may leave the namespace changed (C61_refuted), mimetype numbers from 65535 on, mimetypes of redirects and numbers from 2^32 on are accepted although the entry cannot be stored. Proved: what every accepted assignment does (C61_accepted), that values fitting the format keep the entry storable, and what rejected assignments leave (C61_rejected_partial)."
  },
  {
   "property": "C62",
   "status": "partial",
   "theorems": [
    "C62_clean_is_unchanged",
    "C62_clean_flush",
    "C62_same_value",
    "C62_unchanged_is_clean",
    "C62_flush_twice",
    "C62_edits_are_saved_partial",
    "C62_flush_succeeds_partial",
    "C62_refuted"
   ],
   "note": "Refuted as stated (C62_refuted): an entry moved into namespace C without assigning is_article cannot be flushed (ValueError). Proved for all other edits of content entries that no redirect leads to and that are not the main page (see C39, C40, C42 for those)."
  },
  {
   "property": "C63",
   "status": "partial",
   "theorems": [
    "C63_removal_partial",
    "C63_refuted"
   ],
   "note": "Refuted (C63_refuted): after assigning the url, remove() removes the entry with the new url. Proved if the url is as it was."
  },
  {
   "property": "C64",
   "status": "partial",
   "theorems": [
    "C64_reads_are_slices_partial",
    "C64_senseless",
    "C64_start_alone",
    "C64_refuted"
   ],
   "note": "Refuted (C64_refuted, C64_start_alone): a start without an end raises TypeError. Proved for all other sensible ranges; senseless ranges raise ValueError without reading (C64_senseless)."
  },
  {
   "property": "C65",
   "status": "proved",
   "theorems": [
    "C65_archive_is_a_table",
    "C65_new_archive"
   ],
   "note": "Restrictions on the calls are those in the statement; outside of them the claim is false of the code (C39, C40, C42, C61, C63). Calls are assumed to return; loops have enough fuel."
  },
  {
   "property": "C66",
   "status": "partial",
   "theorems": [
    "C66_lost_update",
    "C66_key_error",
    "C66_refuted",
    "C66_with_room_partial",
    "C66_flushed_by_hand_partial"
   ],
   "note": "Refuted for the default cache of two clusters: editing entries of three clusters silently loses the third edit (C66_lost_update, C66_refuted); adding an item with two edited clusters pending ends in KeyError, as does every later flush (C66_key_error). Proved for every history in which at most as many clusters have pending edits as the cache holds, fewer when an item is added (C66_with_room_partial), in particular if edited clusters are flushed by hand. Clusters are lists of blobs here; C43-C45 are about their bytes."
  },
  {
   "property": "C67",
   "status": "partial",
   "theorems": [
    "C67_refuted",
    "C67_noticed_partial"
   ],
   "note": "Refuted (C67_refuted): close() flushes only if the archive knows of changes, and edits of cached clusters do not tell it. Proved if a cluster was added or flushed by hand since the last flush, or if no edit is pending."
  },
  {
   "property": "C68",
   "status": "partial",
   "theorems": [
    "C68_additions_partial",
    "C68_new_archive_partial",
    "C68_refuted"
   ],
   "note": "Refuted for archives with redirects (C68_refuted): writing an item in front of the target of a redirect rewrites the redirect in place, so that the old url list in the file makes it lead elsewhere. Proved for archives without redirects: any file mixed byte by byte from the files that existed since the flush opens and shows the flushed table. Crash points lie between calls; not covered: crashes within flush() after its first phase (the pointer lists are rewritten), edits and removals after the flush."
  },
  {
   "property": "C69",
   "status": "partial",
   "theorems": [
    "C69_dirty_partial",
    "C69_refuted"
   ],
   "note": "Refuted (C69_refuted, C69_lost): redirects that wait for their target do not make the archive dirty, so that flush() on an archive without other changes returns without writing them or raising, and close() loses them. Proved for archives that are dirty when they are flushed (C69_dirty_partial): all redirects are written, in whatever order they were added. Items waiting in a compression strategy at the same time are covered by C65."
  },
  {
   "property": "C70",
   "status": "partial",
   "theorems": [
    "C70_waiting_partial",
    "C70_written_partial",
    "C70_disabled_partial",
    "C70_refuted"
   ],
   "note": "Refuted (C70_refuted, C70_moved, C70_undone): an item added after set_mainpage_url() that is written directly in front of the redirect to the main page becomes the main page, and set_mainpage_url(None) is repeated by the next flush(), which undoes a later choice. Proved if the page is still waiting to be written when it is chosen, whatever else is added, edited or removed before the flush (C70_waiting_partial), and if all pages are written when it is chosen and the archive is flushed next (C70_written_partial). Disabling the main page is proved too: after set_mainpage_url(None) in a clean archive and a flush, a reader finds no main page (C70_disabled_partial). Missing: choices while another one is waiting."
  },
  {
   "property": "C71",
   "status": "partial",
   "theorems": [
    "C71_get_partial",
    "C71_set_adds",
    "C71_last_set_partial",
    "C71_dict_partial",
    "C71_refuted",
    "C71_dict_refuted"
   ],
   "note": "Refuted (C71_refuted, C71_first_wins): if a key is set twice before a flush with different mimetypes and items are sorted by mimetype, the first value can win; the dict of all metadata misses what waits to be written (C71_dict_refuted, C71_dict_misses), although get_metadata finds it. Proved for the histories of C65 (a key is set again only after a flush): get_metadata flushes and returns the value of the table, following redirects, or None, also after opening the file; the dict on the flushed archive is exact. set_metadata that returns is the addition of an item (C71_set_adds)."
  },
  {
   "property": "C72",
   "status": "partial",
   "theorems": [
    "C72_copy_partial",
    "C72_history_partial",
    "C72_refuted",
    "C72_pages_refuted",
    "C72_main_page_first",
    "C72_without_main_page",
    "C72_with_main_page_partial",
    "C72_history_main_partial"
   ],
   "note": "Refuted (C72_refuted, C72_no_main_page): the default handle_header raises for an archive without a main page; with a handle_header that does nothing (C72_pages_refuted, C72_no_redirect), an archive without redirects makes translate() raise before the new archive is flushed, which then lacks the pages that were copied; a redirect whose title is its url gets the title of its target (C72_title_changes). Proved with a handle_header that does nothing, if translate() returns: the new archive and the one opened from its file have exactly the pages of the input (C72_copy_partial; C72_history_partial for inputs made by the histories of C65), for redirects that have a title of their own, are no articles and do not lead to themselves or to a page that is left out. With the default handle_header: an archive without a main page is not copied at all (C72_without_main_page); otherwise set_mainpage_url is called first with the url of the page in which the main page ends (C72_main_page_first), and if translate() returns, the output has the pages and its main page leads to that page, also when opened from its file (C72_with_main_page_partial, C72_history_main_partial). If the main page is a redirect to a redirect, the copy leads to the last page instead (C72_main_page_changes). Missing: main pages outside namespace C and other redirects that lead to the main page redirect."
  },
  {
   "property": "C73",
   "status": "partial",
   "theorems": [
    "C73_counter_partial",
    "C73_new_archive_partial",
    "C73_refuted",
    "C73_load_counter",
    "C73_recounted_partial"
   ],
   "note": "Refuted (C73_refuted): an entry that is moved out of namespace C stays counted. Proved for the histories of C65 that do not touch the entry of the counter and do not move entries into or out of namespace C (C73_counter_partial for opened archives, C73_new_archive_partial for new ones, C73_recounted_partial for archives whose counter is missing or unreadable, which are counted again when they are opened, C73_load_counter): after a flush the stored text can be read back, all its numbers are exact, in the archive and in the one opened from its file, and the other pages are those of C65. Conditions: the mimetypes can be read back from the text (C20); an archive that is not dirty is flushed only if its counter is not dirty; no other page has the blob of the counter."
  },
  {
   "property": "C74",
   "status": "partial",
   "theorems": [
    "C74_object_of_stored_cluster_partial",
    "C74_object_of_new_cluster_partial",
    "C74_refuted"
   ],
   "note": "Refuted (C74_refuted): the object shows wrong blobs after removals mixed with other edits (C29). Proved for the edits for which C29 holds, for stored and for new clusters, with numbers told or (if no number went out of use) not told. Assumption on the compression libraries besides C43: how much they return does not depend on how the data is cut into pieces (the size of the cluster is measured again after a flush by compressing the same data in other pieces)."
  },
  {
   "property": "C75",
   "status": "partial",
   "theorems": [
    "C75_title_position_partial",
    "C75_refuted"
   ],
   "note": "Refuted (C75_refuted): new content for an entry in the same cluster moves the list and leaves the position in the header as it was. Proved for histories in which items are added (C75_title_position_partial), for the archive and the one opened from its file."
  },
  {
   "property": "C76",
   "status": "proved",
   "theorems": [
    "C76_list_history",
    "C76_new_list",
    "C76_immutable",
    "C76_reads"
   ],
   "note": ""
  },
  {
   "property": "C77",
   "status": "proved",
   "theorems": [
    "C77_one_list",
    "C77_articles"
   ],
   "note": ""
  },
  {
   "property": "C78",
   "status": "partial",
   "theorems": [
    "C78_refuted",
    "C78_iter_clusters_partial"
   ],
   "note": "Refuted (C78_refuted): the number of clusters is taken from the header, which is only brought up to date by a flush, so clusters written since then are left out. Proved for archives whose list of clusters was not changed since the last flush (C78_iter_clusters_partial)."
  },
  {
   "property": "C79",
   "status": "proved",
   "theorems": [
    "C79_cache_is_transparent"
   ],
   "note": "A least-recently-used cache of size 0 makes every look-up raise AttributeError (C79_example_size_0), hence the condition on sizes. Clusters are not read by these calls; the cluster cache is in C66."
  },
  {
   "property": "C80",
   "status": "partial",
   "theorems": [
    "C80_refuted",
    "C80_save_without_cache_partial",
    "C80_remove_without_cache_partial"
   ],
   "note": "Refuted (C80_refuted) for every caching class: renaming an entry that is in the cache leaves it under its old url too and the url list unsorted, because the search for the old url reads the changed object (C80_example_rename_last/top/hybrid); removing an entry with unsaved changes raises and leaves it in the archive (C80_example_delete_last); an unsaved new url makes other entries unfindable (C80_example_look_last). Proved without a cache, which is the default policy, for all states (C80_save_without_cache_partial, C80_remove_without_cache_partial): object level calls do what Archive.v says. Missing: the edits that are unaffected by a cache."
  },
  {
   "property": "C81",
   "status": "partial",
   "theorems": [
    "C81_sessions_partial",
    "C81_new_archive_partial",
    "C81_refuted"
   ],
   "note": "Refuted (C81_refuted): an archive created without reserved space and opened with the default policy (2048 bytes) has the bytes behind its header overwritten by the mimetype list as soon as an item with a new mimetype is added, and cannot be opened any more. Proved for any sequence of sessions in which the reserved space stays the same, shrinks (not below the size of the list) or is given up (C81_sessions_partial, C81_new_archive_partial)."
  },
  {
   "property": "C82",
   "status": "partial",
   "theorems": [
    "C82_calculate_partial",
    "C82_update_partial",
    "C82_truncated_file",
    "C82_refuted"
   ],
   "note": "Refuted (C82_refuted): if the checksum position is behind the end of the file, as in a truncated download, the loop never ends (C82_truncated_file). Proved for positions within the file (C82_calculate_partial, C82_update_partial). md5 is abstract: a function that can be fed piecewise."
  },
  {
   "property": "C83",
   "status": "partial",
   "theorems": [
    "C83_reads_partial",
    "C83_in_memory",
    "C83_calls",
    "C83_refuted",
    "C83_reset_refuted"
   ],
   "note": "Refuted (C83_refuted): a generator of iter_read_blob holds the lock of the file between two chunks, and the lock cannot be taken twice, so a thread that reads anything else before the generator is at its end waits for itself for ever (default cluster class); and a reset() of a cluster by another thread at the wrong moment makes a thread wait for itself, too (C83_reset_refuted). Proved for all interleavings if no cluster is reset and generators are ended or closed before the thread uses the archive again (C83_reads_partial), without the condition on generators for clusters in memory (C83_in_memory) and for reads in one go (C83_calls). A method of the decompressing reader is one step; the threads do not write."
  },
  {
   "property": "C84",
   "status": "partial",
   "theorems": [
    "C84_lookups_partial",
    "C84_never_wrong",
    "C84_one_thread",
    "C84_entries_default",
    "C84_refuted",
    "C84_missing_refuted"
   ],
   "note": "Refuted (C84_refuted) with the default policy: between has() and get() of the cluster cache another thread can get two other clusters, and get() raises KeyError out of get_cluster_by_index. With a cache for entries an entry that exists is reported as missing, because the KeyError of the cache is taken for that of the search (C84_missing_refuted, all three caching classes). Proved for all interleavings if each cache keeps nothing or has room for everything that is put into it (C84_lookups_partial); with the default policy entries are always found (C84_entries_default); for one thread with caches of any size (C84_one_thread). With caches of any size and any threads no answer is ever a wrong entry or cluster, look-ups can only miss (C84_never_wrong). Cache methods that hold the lock of the cache are one step; the archive is read only."
  },
  {
   "property": "C85",
   "status": "partial",
   "theorems": [
    "C85_listening_is_harmless",
    "C85_every_change_is_told_partial",
    "C85_picture_is_kept_partial",
    "C85_refuted"
   ],
   "note": "Refuted (C85_refuted): renaming an entry to the url of another one returns, leaves two entries with this url, and is told like a move to a free url. Proved for the changes that C37, C39 and C42 cover (additions, edits in place, moves, removals, also with the redirects to the entry), in any number (C85_picture_is_kept_partial). That a processor which only listens changes nothing is proved for every call, also one that raises (C85_listening_is_harmless). Cached objects are not part of the model (no caches, as in C37-C43); before_entry_write and before_entry_remove are those of BaseProcessor."
  },
  {
   "property": "C86",
   "status": "partial",
   "theorems": [
    "C86_write_partial",
    "C86_remove",
    "C86_pages_partial",
    "C86_other_data_partial",
    "C86_refuted"
   ],
   "note": "Refuted (C86_refuted): a write that raises because the mimetype number does not fit has already given back the space of the version that stays listed. Proved for entries that can be represented and whose url is not taken by another entry (C86_write_partial), for removals of any url (C86_remove), and for histories of such calls with any outcomes (C86_pages_partial, C86_other_data_partial)."
  },
  {
   "property": "C87",
   "status": "partial",
   "theorems": [
    "C87_without_counter",
    "C87_with_counter_partial",
    "C87_refused",
    "C87_refuted",
    "C87_reinit_partial"
   ],
   "note": "Refuted (C87_refuted): with the default policy an archive without the entry MCounter cannot be opened for reading: installing the counter adds a placeholder item, which raises NonMutable (NoCounter with policy \"load\", C87_refused). Proved: with policy \"ignore\" every written file opens and shows what was written (C87_without_counter); a file written together with its counter opens with every policy but \"reinit\", with the right counter (C87_with_counter_partial); with \"reinit\" exactly the files with a page MCounter open (C87_reinit_partial)."
  },
  {
   "property": "C88",
   "status": "partial",
   "theorems": [
    "C88_reading_partial",
    "C88_reading_path",
    "C88_closed",
    "C88_close_partial",
    "C88_reading_refuted",
    "C88_close_refuted"
   ],
   "note": "Refuted: update_checksum has no check, so with a writable file object it changes a file with a wrong checksum (C88_reading_refuted); assigning to the header after close() makes the archive dirty and the next close() raises ZimFileClosed (C88_close_refuted). Proved for all sequences of calls: nothing changes with Zim.open (C88_reading_path), or if the checksum is right or update_checksum is not called (C88_reading_partial); after close() the file is not changed (C88_closed). The bodies of the methods behind the checks are arbitrary. Changes of entry objects that were read and not written are not part of it."
  },
  {
   "property": "C89",
   "status": "proved",
   "theorems": [
    "C89_recount",
    "C89_new_archive"
   ],
   "note": "The loop for every consistent archive (C89_recount), and every file that was written (C89_new_archive)."
  },
  {
   "property": "C90",
   "status": "partial",
   "theorems": [
    "C90_reading_partial",
    "C90_failing_partial",
    "C90_refuted",
    "C90_titles_refuted",
    "C90_open_refuted",
    "C90_update_refuted"
   ],
   "note": "Refuted (C90_refuted): the checksum is read, calculated and written without the offset. Also: the title list whose place is in the header is read without the offset (C90_titles_refuted), Zim.open ignores its offset argument (C90_open_refuted), and a flush writes the checksum into the archive and cuts off its end, after which it cannot be opened (C90_update_refuted). Proved: everything else that is read is the same, for format version 6.3 or newer, or with the list of titles in an entry (C90_reading_partial); failures to open are the same for format version 6.3 or newer (C90_failing_partial)."
  },
  {
   "property": "C91",
   "status": "partial",
   "theorems": [
    "C91_refuted",
    "C91_uncompressed_partial",
    "C91_get_search_partial"
   ],
   "note": "Refuted (C91_refuted): the position is computed from the uncompressed data, without a check of the compression, so that other bytes lie there if the cluster is compressed. Proved for every file that pyzim has written and every page in a cluster without compression, in read-only and writable archives (C91_uncompressed_partial), with the choice of get_search (C91_get_search_partial). An index entry that is a redirect raises AttributeError, also from get_search. Xapian itself is a parameter."
  },
  {
   "property": "C92",
   "status": "partial",
   "theorems": [
    "C92_bind",
    "C92_unbound",
    "C92_one_archive_partial",
    "C92_tidy_partial",
    "C92_refuted",
    "C92_wrapper"
   ],
   "note": "Refuted (C92_refuted): bind() and unbind() keep what the cluster has remembered (information byte, offsets, data, reader), so a cluster that was used in one archive gives the data of that one after it is bound to another. Proved for all histories in which nothing was asked of it while it was bound to another archive (C92_one_archive_partial), and for all histories in which the cluster is reset before it is used in another archive (C92_tidy_partial), although reset() keeps the reader; bind, unbound clusters (apart from reset and remembered offsets) and wrappers: proved for all histories."
  },
  {
   "property": "C93",
   "status": "proved",
   "theorems": [
    "C93_all",
    "C93_range",
    "C93_missing",
    "C93_request"
   ],
   "note": "Xapian is a parameter: a list of matching documents for every term, of which get_mset gives the part asked for. The shared file position of the descriptor is not modelled. C93_missing: an index that is out of date makes the whole page fail."
  },
  {
   "property": "C94",
   "status": "partial",
   "theorems": [
    "C94_steps",
    "C94_after_header_partial",
    "C94_after_header_new_partial",
    "C94_before_lists_partial",
    "C94_before_lists_new_partial",
    "C94_refuted"
   ],
   "note": "Refuted (C94_refuted): the url pointer list may be written over the cluster pointer list that the header in the file still refers to, so that a crash just before the header is written leaves a file that cannot be opened. Proved: flush() of a modified archive is the sequence of steps that the theorems speak about (C94_steps); once the header is written, any mix of the bytes written since shows the new table, for all histories of C65; up to and including the write of the article title list, any mix of the bytes written since the last flush shows the old table, for archives without redirects to which items have been added. Crash points lie between the steps; not covered for the old table: edits, removals and redirects."
  },
  {
   "property": "C95",
   "status": "partial",
   "theorems": [
    "C95_transparent",
    "C95_flush_partial",
    "C95_flush_new_partial",
    "C95_unmodified",
    "C95_close",
    "C95_closed",
    "C95_close_new_partial",
    "C95_refuted"
   ],
   "note": "Refuted (C95_refuted): a flush() of an archive without changes tells the processors that it will begin and then returns without telling them that it has ended. Proved for all histories of C65 that leave changes to be saved; C95_transparent: the processors that only look do not change what flush() does. Processors that change the archive while they are told, the caches and the failure of the file object are not covered."
  },
  {
   "property": "C96",
   "status": "partial",
   "theorems": [
    "C96_lru_others_partial",
    "C96_top_others",
    "C96_hybrid_others_partial",
    "C96_top_room",
    "C96_lru_refuses",
    "C96_allowed_room",
    "C96_refuted"
   ],
   "note": "Refuted (C96_refuted): a LastAccessCache that is empty refuses the element; C96_lru_refuses: it takes it exactly for keys that are cached already. Proved: nothing else is removed, changed or reported, for all kinds of caches and all histories; a TopAccessCache takes the element whenever there is room."
  },
  {
   "property": "C97",
   "status": "partial",
   "theorems": [
    "C97_transparent",
    "C97_every_history",
    "C97_failures",
    "C97_notice_partial",
    "C97_table_partial",
    "C97_refuted"
   ],
   "note": "Refuted (C97_refuted): a cluster that is rewritten without telling its number, after another one was removed, is announced (and stored) with the number of the removed one, as in C45. Proved for the histories of C45_numbers_partial; C97_transparent and C97_failures hold without conditions. Processors that replace the cluster in before_cluster_write and the cluster cache are not covered."
  },
  {
   "property": "C98",
   "status": "partial",
   "theorems": [
    "C98_by_index",
    "C98_mainpage",
    "C98_iteration",
    "C98_by_url_partial",
    "C98_resolve_partial",
    "C98_pages_partial",
    "C98_lost",
    "C98_refuted"
   ],
   "note": "Refuted (C98_refuted): a processor that changes urls also changes what the search compares, and entries that exist are not found. Proved for processors that keep urls (look-ups by url) and that keep the kind and the target of redirects (resolution); look-ups by number, the main page and iteration: for all processors. The processors do not fail and do not use the archive; the entry cache is not covered."
  },
  {
   "property": "C99",
   "status": "partial",
   "theorems": [
    "C99_transparent",
    "C99_one_call",
    "C99_flush_partial",
    "C99_add_partial",
    "C99_refuted"
   ],
   "note": "Refuted (C99_refuted): a redirect whose url cannot be encoded is told, and only then refused. Proved for redirects that the format can represent, with different new urls, and an archive with room (the conditions of C47); C99_transparent and C99_one_call hold without conditions. Processors that change the entry are not covered; the redirect of the main page only as far as it goes through the same calls."
  },
  {
   "property": "C100",
   "status": "partial",
   "theorems": [
    "C100_other_files",
    "C100_reading",
    "C100_exclusive",
    "C100_new",
    "C100_update",
    "C100_translator_refuses",
    "C100_translator_files_partial",
    "C100_translation_partial",
    "C100_refuted"
   ],
   "note": "Refuted (C100_refuted): with the same path for input and output, and the default allow_replacement, the input is emptied when the translator is made. Proved for different paths; opening without conditions. Links between paths, other users of the files and failing file operations are not represented; the copy (C100_translation_partial) has the conditions of C72."
  },
  {
   "property": "C101",
   "status": "proved",
   "theorems": [
    "C101_lookup",
    "C101_by_index",
    "C101_any_cache"
   ],
   "note": "For archives open for reading, where cluster objects cannot be changed; the sizes of the cache are at least 1. Hooks that fail or use the archive themselves are not represented."
  },
  {
   "property": "C102",
   "status": "partial",
   "theorems": [
    "C102_complete",
    "C102_uuid",
    "C102_pages",
    "C102_values_partial",
    "C102_refuted"
   ],
   "note": "Refuted (C102_refuted) for the magic number, whose key is misspelled \"magic_number:\"; proved for everything else. uuid.hex and uuid.int of the standard library are modelled by their definitions."
  },
  {
   "property": "C103",
   "status": "partial",
   "theorems": [
    "C103_table",
    "C103_numbers",
    "C103_strings",
    "C103_history_partial"
   ],
   "note": "C103_table, C103_numbers and C103_strings hold without conditions on the archive; C103_history_partial has the conditions of C65 (operations that return, an archive with room) and leaves out the title lists that the library keeps itself."
  },
  {
   "property": "C104",
   "status": "partial",
   "theorems": [
    "C104_accepted",
    "C104_kept",
    "C104_refuted",
    "C104_usable_partial",
    "C104_module",
    "C104_reported"
   ],
   "note": "The full statement is refuted (C104_refuted): policy.py 181 tests compression_strategy_kwargs a second time, so \"zim\" among uncompressed_compression_strategy_kwargs is accepted and opening for writing raises TypeError. C104_usable_partial asks for what the test leaves out. The isinstance tests are left to types."
  }
 ]
}