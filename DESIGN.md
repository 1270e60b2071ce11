# Formal model of pyzim in Rocq (Coq 8.16.1)

The model is a set of total Gallina functions that mirror the Python
functions branch by branch.  Every model definition carries a comment with the
file and lines in /repo it models and with the simplifications made.

## Conventions

* Python `bytes` = `list Byte.byte`; Python `str` = `list Z` (code points, lone
  surrogates included, since Python strings can hold them).
* Python `int` = `Z` (offsets, sizes, pointers); list positions are `nat` where
  the code can only use valid positions, `Z` where negative or out-of-range
  values reach the code.
* An exception is a value: `res A := Ok a | Err exn`.  Object mutation is
  state passing.  A `while` loop that need not terminate is given fuel, and
  running out of fuel is an explicit error value (`Err Diverge`); theorems
  say either that it never happens or (findings) that it happens for every fuel.
* External code (compressors, md5, key functions, callbacks) is a parameter of
  a `Section`; its contract is a hypothesis of the section and appears in the
  statement of every theorem that uses it.  A concrete instance shows that the
  contract can be met.
* File layout: `X.v` (model of module X, definitions only), `XSpec.v` or a
  spec section (independent specification), `XProofs.v` (lemmas),
  `PropsX.v` (only: property theorems closed by `exact`, `Print Assumptions`
  under each, and an example that a non-trivial case meets the hypotheses).
* A property that the code does **not** have is stated in full and shown false
  of the model with a concrete history (`..._refuted`); what does hold is proved
  with suffix `_partial`.

## Trusted base

* Coq's kernel (and `coqchk`), the reading of Python semantics described above.
* `Print Assumptions` for every property theorem; see the end of this file.
* No axioms are used or added.
* What is and what is not modelled: see the section after the table.

## Plan per property

| id | modelled code | how it is proved |
|----|---------------|------------------|
| C01-C04 | `SpaceAllocator.allocate/mark_free` as functions on `(free list, file_end)` | invariant over op lists; abstract spec is the set of free byte positions |
| C05,C06,C08 | `Header` codec as little-endian fields | round trip both ways, length; exact acceptance condition |
| C07 | header setters, dirty flag, mutability | invariant over op lists against a ghost copy of the bytes at last flush |
| C09-C11 | entry codecs incl. `BaseEntry.from_file` dispatch | round trip with arbitrary suffix; 0xffff refutation |
| C12-C14 | `MimeTypeList` | round trip, size, history invariant (prefix order) |
| C15-C19 | `pointerlist.py` | codec round trip; binary search spec; multiset refinement; on-disk agreement |
| C20,C21 | `counter.py` | string codec round trip; history against a recount |
| C22 | UTF-8 encoder/decoder | order isomorphism and prefix lemma |
| C23 | infobyte | case analysis over all bytes |
| C24 | `DecompressingReader` over an abstract decompressor state machine | refinement to a position in the plain stream |
| C25,C26 | `Cluster`, `InMemoryCluster` reading from file bytes | round trip through `iter_write`; slices; refutations |
| C27-C29 | `ModifiableClusterWrapper` | refinement to a list of blobs; refutations for mixed edits |
| C30 | linked list as a heap of cells with prev/next | representation predicate, refinement to a list |
| C31-C36 | the four caches, with the lock and the callback as trace events | refinement / invariants / refutations |
| C37-C45 | `Zim.write_entry`, `_update_url_pointers`, `remove_entry_by_full_url`, `write_cluster`, `remove_cluster_by_index` over a byte-level file with the allocator | invariant of the whole archive; refutations |
| C46 | `flush`, open, checksum (md5 abstract) | layout invariant, round trip; for all histories of C65 (PropsViewChecksum.v) |
| C47 | `OperationBuffer`, `add_full_url_redirect` | least fixpoint characterisation, termination |
| C48 | compression strategies | invariant over item sequences |
| C49,C50 | `TitleStartSearch`, `SearchResultSet` | via C16 and C22; induction on pages |
| C51 | `iter_by_cluster` | permutation and grouping |
| C52 | `follow`/`resolve` | terminates iff chain is acyclic |
| C53 | `get_metadata_keys` | via C16 on sorted lists |
| C54 | `read_until_zero` | exact termination condition (diverges at EOF) |
| C55,C56 | small-step interleaving semantics of threads | invariant over all schedules; racing schedule |
| C57 | `ModifiableMixIn` trees | history invariant |
| C58 | `CompressionRegistry` | refinement to a map of stacks |
| C59 | blobs | consecutive slices |
| C60 | creation, `add_item`, `flush`, open | invariant over histories of adding, flushing, reopening |
| C61 | attribute setters of `BaseEntry`, `ContentEntry`, `RedirectEntry` | case analysis of each setter; refutations |
| C62 | `entry.flush`, dirty flag, `write_entry` | invariant over assignment lists, then the laws of `write_entry` (`ArchiveEdit.v`); refutation |
| C63 | `entry.remove` | laws of `remove_entry_by_full_url`; refutation |
| C64 | `ContentEntry.read` | range check, then C26 |
| C65 | everything above together: items, strategies, buffered redirects, entry objects, flush, open | a plain table (`ViewSpec.v`); invariant `vcore` relates archive, waiting items and buffered redirects to the table, and `wcore` (`ViewWaitProofs.v`) also with items that replace written pages; each operation keeps it (`ViewStepProofs.v`, `ViewHistoryProofs.v`), induction over the history |
| C66 | cluster cache, eviction, nested writes, flush (`AutoFlush.v`); a stored cluster is its list of blobs, space allocation a parameter | table of clusters (`AutoFlushSpec.v`); invariant with suspended writes (`AutoFlushProofs.v`), induction over the depth of nesting, then over the history; refuted for the default cache size |
| C67 | the same and `close` | as C66; refuted by one edit |
| C68 | histories of C65 up to a flush, then additions; a crash leaves any mix of the bytes of the files since then | `grown` keeps all bytes in use outside of redirects; such a file is laid out as before, so opening it works as in C46; refuted with a redirect |
| C69 | `add_redirect` calls on an archive with nothing pending, then the whole of `flush` (`Flush.v`, `OperationBuffer.v`) | invariant over the rounds of the operation buffer (each redirect is waiting or written), then the flush of the lists as in C46; refuted with a concrete clean archive |
| C70 | `set_mainpage_url` among the operations of C65 (`VMain` in `ViewSpec.v`), then `flush` | invariant of C65, extended: a choice that waits has its redirect in the buffer; the index of the main page through the last phases of `flush`; refuted with two concrete histories |
| C71 | `set_metadata`, `get_metadata`, `get_metadata_dict` (`Metadata.v`) on the archive of `Flush.v`; values that a table leads to, `MetadataSpec.v` | `set_metadata` is an operation of C65; the table of C65 read through lookup, `resolve` and `read`; a second flush does nothing; refuted with two concrete histories |
| C72 | `ZimTranslator` with its default handlers, `Item.from_entry`, `EntryBlobSource` (`Translator.v`) from an archive of `Flush.v` to a new one; the table of a copy, `TranslatorSpec.v` | induction over the urls that are copied: each is an addition or a redirect of C65; each url comes once (C51), what an entry delivers is its content (C09-C12); refuted with archives without a main page and without redirects; with the own `handle_header` the operation buffer holds two redirects for the main page: invariant that every page but that redirect is as in the table (`RelinkProofs.v`, `MainFlushProofs.v`) |
| C73 | the operations of C65 with the counter installed, `CountedArchive.v` (`after_entry_write` with the entry that was there before, `after_entry_remove`, `after_content_flush`, installing and loading); the number of pages of a mimetype, `CountedSpec.v` | invariant over histories: the counter counts the written pages of the table (C65), its entry holds its text unless it is dirty; the text is read back by C20; a counter that is missing or unreadable is recounted over all entries (`PropsRecount.v`); refuted with an entry that leaves namespace C |
| C74 | one cluster object through edits and flushes, `write_cluster` of `ArchiveCluster.v` including `after_flush_or_read`; the reader that `reset` leaves behind, `ClusterReuseProofs.v` | invariant: after a flush the wrapped cluster is at its new place with a stale reader that has read something, which every later read replaces (`holds_moved`); refuted with C29's edits |
| C75 | the flush of the title lists in `Flush.v` (position set from the cluster pointer, the information byte and the offset of the blob) | the position is part of what every step of a history keeps (`titled`, field of `hcore`); the bytes there follow from the layout of the cluster; refuted by setting content twice, the moved list leaves its old place to another cluster |
| C76 | `PointerList.v`; a history is a list of calls on one pointer list | each call does on the pointers what the call of the specification (`lspec`, a plain list) does; induction over the history |
| C77 | the queries of `Archive.v` and `Iteration.v` on the states `consistent` describes | all queries are related to the one list `L` that the invariant names; ranges by induction over the number of steps |
| C78 | `iter_clusters` in `Iteration.v` over the archives of `Flush.v` | each number leads to a cluster object that shows the stored blobs (C43's lemmas); refuted by a new archive: its header counts no cluster |
| C79 | `EntryCache.v`: the look-ups of `Archive.v` again, reading through a cache of `Cache.v` that holds entry objects | each look-up with the cache is related to the pure one of `Archive.v` (`reads`); invariant: what the cache holds is what the file holds; induction over the session |
| C80 | `EntryCache.v`: `write_entry` and `remove_entry_by_full_url` on shared objects, writes caused by evictions included | refuted by three short histories; without a cache, a simulation of every step of `write_entry` and of the removal by `Archive.v` |
| C81 | the sessions of `FlushHistorySpec.v`, each with its own `reserve_mimetype_space` (`ReserveSpec.v`) | refuted by two sessions; for space that is not enlarged: the layout invariant of C46/C60 carries over to the smaller part, then induction on the sessions |
| C82 | the chunked loop of `calculate_checksum` over the file (`Flush.v`) | induction on the rounds: ends and feeds exactly the prefix if it is in the file, never ends otherwise (refutation of the full statement) |
| C83 | the cluster methods as programs of single steps on shared attributes, file position and a lock that cannot be taken twice; scripts of calls and generators per thread; any schedule (`Threads.v`) | a small logic for programs that run among others (what always holds, how it may grow, what the lock protects), one lemma per method; progress from the logic, termination because programs are well-founded; refutations by concrete schedules |
| C84 | the look-ups (cache, file, binary search, pointer lists in memory and on disk) as programs of single steps; the caches of `Cache.v` shared by all threads (`ThreadsCache.v`) | the logic of C83: what is cached is right and stays cached while there is room, so every look-up returns the same in every schedule; the search is then that of C16; refutations by concrete schedules |
| C85 | `write_entry` and `remove_entry` of `Archive.v` again, on the archive together with the notes of a processor (`Processors.v`) | erasure: the notes do not change the rest; by the invariant of C37-C43, each rewritten redirect is told with its true old version, so the notices take a table of the entries before to one of the entries after; induction over the history; refutation by a rename to an occupied url |
| C86 | `write_entry` and `remove_entry` of `Archive.v`, with any outcome | an invariant of the layout of the entries (not of titles or redirect targets) that every step keeps whether or not it raises, relative to the urls the call is about, the bytes it must not touch and the entries that must survive; induction over the recursion of the calls and over the history; refutation by a mimetype number that does not fit |
| C87 | opening with each counter policy, `ReadOnly.v` (`load_from_archive`, `install_counter`, `open_session`) over `open_zim` of `Flush.v` | the theorems about histories C65 and C73 give the archive and its counter; which branch of the installation is taken follows from the page MCounter of the table; refutation by the sample history of C65 |
| C88 | the checks at the start of the methods (`checks`), with any body behind them, `close`, `__exit__`, `update_checksum`, assignments to header and mimetypes, `ReadOnly.v` | invariant over sequences of calls: not mutable, not dirty, header and mimetypes not mutable; or: closed; refutations by a file with a wrong checksum and by an assignment after closing |
| C89 | `recount` in `ReadOnly.v`, `count_all` in `CountedArchive.v` | induction over the entries, which are listed once each (C77); for histories by the table of C65, whose mimetypes are encoded texts |
| C90 | look-ups, clusters, opening, and the end of `flush`, with the offsets that the code adds or does not add, `Offset.v` | a simulation of the readers of clusters on `f` and on `p ++ f` whose positions differ by the length of `p`; the look-ups by rewriting the bytes behind a position; refutations by a sample archive behind twenty bytes |
| C91 | `XapianSearch._offset` and `__init__` around the library, `get_search`, `SearchIndex.v` | the position of a blob in its cluster and the layout of an uncompressed cluster give the bytes; histories by the invariant of C65; refutation by a compression that turns bytes over |
| C92 | `BindableMixIn`, `ModifiableClusterWrapper.bind`/`unbind`, calls of a cluster with several archives, `Binding.v` | the invariant of C25 along the history as long as only one archive is read; for clusters that are reset in between: a call does the same without the reader that was kept (`BindingProofs.v`); refutation by an InMemoryCluster moved to another archive |
| C93 | `XapianSearch.search_in_range` and result sets over it, `XapianSearch.v`; the matches of a term are a parameter | induction over the pages, look up by url from C37 |
| C94 | the steps of `flush` in order, `FlushCrashSpec.v`; a crash leaves any mix of the bytes of the files in between | `C94_steps` ties the steps to `zim_flush`; the steps keep all bytes in use of the archive that is found, which is laid out as before, so opening it works as in C46; refuted by a crash before the header is written |
| C95 | `flush` and `close` with a processor that writes down what it is told and the archive at that moment, `FlushWatch.v` | the watched flush is the flush of C46 cut in two; the archive in the middle is the one of the invariant of C65 after the content has been written; refuted by a flush of an archive without changes |
| C96 | the caches of `Cache.v`; `others_stay`, `has_room` and `stores` speak about `push`, `get` and `on_leave` only | the refinement of C31 and C35: one push seen on the list of elements; refuted for the last-access cache, which refuses although it is empty |
| C97 | `write_cluster` with the hooks before and after it, `ClusterWatch.v`; a table kept from the notices, `ClusterWatchSpec.v` | the step lemma of C45 with the place of the written cluster, then induction over the history; refuted by the history of C45_refuted |
| C98 | the readers of `Archive.v` with the hooks of `get_entry_at` and processors with a state, `EntryHooks.v` | the search compares the same keys at every step, whatever the state; refuted by a processor that renames |
| C99 | `OperationBuffer.v` with the hook of `add_full_url_redirect`, `RedirectWatch.v` | the invariant of C47 with the list of notices; refuted by an url that cannot be encoded |
| C100 | `Zim.open` and `PathReaderMixIn` over a map from paths to contents, `Paths.v` | by cases over the modes; the copy with C72; refuted by equal paths |
| C101 | `get_cluster_at` with the caches of `Cache.v` and a list of processors, `ClusterHooks.v` | invariant: everything in the cache is the cluster of its offset as it is in the file |
| C102 | `Header.to_dict`, `HeaderDict.v` | injectivity field by field; the digits by induction on the bytes of the uuid; refuted by a misspelled key |
| C103 | `get_mimetype_of_entry`, `get_mimetype_by_index`, `iter_mimetypes`, `MimeTypes.v` | from the table of C65 and the shape of entries that are read from a file |
| C104 | `Policy.__init__`, the calls of the classes in `Zim.__init__` and `_init_caches`, `Policy.v` | characterisation of the accepted arguments, then the calls; the claim about `zim` is refuted |

## What is modelled and what is not

File by file (Coq file in parentheses):

* `spaceallocator.py` (`SpaceAllocator.v`): all but `print_status`.
* `header.py` (`Header.v`): codec, all fields, setters, dirty state, `to_dict`
  (`HeaderDict.v`).  Not: `__str__`.
* `mimetypelist.py` (`MimeTypeList.v`), `pointerlist.py` (`PointerList.v`),
  `blob.py` (`Blob.v`), `modifiable.py` (`Modifiable.v`), `counter.py`
  (`Counter.v`), `operationbuffer.py` (`OperationBuffer.v`),
  `util/iter.py` (`IterByCluster.v`), `util/ioutil.py` (`Base.v`): complete but
  for printing helpers.  Key functions of ordered pointer lists are parameters.
* `compression.py` (`Reader.v`, `Decompressors.v`): registry, reader over a
  decompressor, the wrappers for the zlib, bz2 and lzma objects.  The library
  objects are state machines with a contract; no real codec is modelled.
* `cluster.py` (`Infobyte.v`, `Cluster.v`, `ClusterWrapper.v`): reading, the two
  caching variants, empty clusters, `ModifiableClusterWrapper`.
* `cache.py` (`LinkedList.v`, `Cache.v`): all caches; threads as interleavings.
* `entry.py` (`Entry.v`, `EntryObject.v`): codecs, attributes, `flush`,
  `remove`, `read`, `set_content`, `follow`, `resolve`.
* `item.py`, `compressionstrategy.py` (`CompressionStrategy.v`): items with their
  conversion to entries, the two strategies.  A blob source is its list of
  bytes together with its declared size.
* `bindable.py` (`Binding.v`): binding of clusters and their wrappers, with several archives; everywhere else objects are bound to the one archive.
* `search.py` (`Search.v`, `SearchIndex.v`, `XapianSearch.v`): `TitleStartSearch`, result sets, where a Xapian index is looked for and what is done with its matches.  Not: Xapian itself, stemming, the descriptor.
* `archive.py`: `Archive.v` (entry layer: look up, iteration, writing, renaming,
  removal, metadata keys), `ArchiveCluster.v` (clusters: `write_cluster`,
  `remove_cluster_by_index`, `get_cluster_by_index`), `ClusterNumbers.v`
  (`_new_cluster_num`), `Iteration.v` (`iter_clusters`, access by url in a namespace), `MimeTypes.v` (mimetypes by entry, by number and listed), `Policy.v` (the constructor of policies and the calls that build caches and strategies from them), `OperationBuffer.v` (redirects, main page), `Metadata.v` (setting and
  reading metadata), `Flush.v`
  (`open`, creation, `flush`, `close`, `calculate_checksum`, `add_item`),
  `AutoFlush.v` (the cluster cache, `_on_cluster_cache_leave`, nested
  `write_cluster`, `close`; a stored cluster is its list of blobs there),
  `EntryCache.v` (the entry layer again, with entry objects shared through the
  entry cache and `_on_entry_cache_leave`),
  `ReadOnly.v` (opening with each counter policy, the checks for closed and
  read-only archives, `close`),
  `CountedArchive.v` (the operations of `Flush.v` with the counter installed:
  `after_entry_write`, `after_entry_remove`, `after_content_flush`, loading).
* threads (`Threads.v`): `Zim.filelock`, `acquire_file` and the reading methods of
  `cluster.py` as programs whose single accesses to shared things are interleaved.
  `ThreadsCache.v`: the look-ups of entries and clusters, the caches and the pointer
  lists (read only) used by several threads.  Not: threads that write.
* `util/translator.py` (`Translator.v`): `ZimTranslator` with its default handlers.
  `Paths.v`: `Zim.open` with its modes and `PathReaderMixIn`, over a map from paths to
  contents.  Not: the caches of its policies.

Simplifications of the archive layer, each repeated at its definition: the
entry and cluster caches of an archive are absent there, except in
`AutoFlush.v` (cluster cache) and `EntryCache.v` (entry cache; the classes of
caches are modelled and verified on their own in `Cache.v`); one thread
uses the archive, except in `Threads.v` and `ThreadsCache.v`; the file is one list of bytes, writes
take effect at once and never fail; the counter is off (policy "ignore") in
`Flush.v`; no processors are installed, except in `Processors.v`, `ClusterWatch.v`, `EntryHooks.v`, `FlushWatch.v`, `RedirectWatch.v`, `ClusterHooks.v`
and the counter; a base offset of 0, except for what is modelled in `Offset.v`
(opening, reading, the end of `flush`).

Not modelled: logging, `__str__`/`__repr__`, `print_*` helpers, the mmap and
file locking of the operating system, real codecs, md5 (abstract function),
Xapian, the hooks of `processor.py` other than those in `Processors.v`, `ClusterWatch.v`, `EntryHooks.v`, `FlushWatch.v`, `RedirectWatch.v`, `ClusterHooks.v` and
the counter, exceptions raised by the operating
system, memory exhaustion.

## Print Assumptions

Every theorem listed in `MANIFEST.json` was printed with `Print Assumptions`;
for each of them Coq answers "Closed under the global context", i.e. no axiom
of the standard library or of any other library is used.  (`vcheck` also lists
seven axioms named `Coq.ssr.ssrunder.Under_rel.*` as present in loaded library
files: they are part of Coq's own `ssr` plugin files, which `Lia`/`ZifyBool`
load; no theorem depends on them.)

* C01: `C01_alloc_never_overlaps_live`, `C01_alloc_total` - closed under the global context
* C02: `C02_free_space_conserved` - closed under the global context
* C03: `C03_free_list_canonical` - closed under the global context
* C04: `C04_best_fit`, `C04_file_never_shrinks` - closed under the global context
* C05: `C05_header_roundtrip`, `C05_header_bytes_roundtrip` - closed under the global context
* C06: `C06_header_rejects_wrong_length`, `C06_header_rejects_oversized_fields` - closed under the global context
* C07: `C07_clean_header_is_persisted`, `C07_assignment`, `C07_assignment_of_integer`, `C07_new_header_accepts`, `C07_negative_values_rejected`, `C07_immutable_header_never_changes`, `C07_main_page_reads_back`, `C07_layout_page_reads_back`, `C07_unchanged_is_clean`, `C07_uuid` - closed under the global context
* C08: `C08_check_compatible_exact` - closed under the global context
* C09: `C09_entry_roundtrip`, `C09_entry_serialisable`, `C09_parse_is_local`, `C09_entry_at_offset` - closed under the global context
* C10: `C10_entry_size_exact` - closed under the global context
* C11: `C11_refuted`, `C11_kind_preserved_partial`, `C11_parsed_kind_consistent_partial` - closed under the global context
* C12: `C12_mimetype_roundtrip` - closed under the global context
* C13: `C13_refuted`, `C13_mimetype_size_partial` - closed under the global context
* C14: `C14_index_stable`, `C14_no_duplicates`, `C14_register`, `C14_register_succeeds`, `C14_clean_is_persisted`, `C14_flush`, `C14_get`, `C14_dirty_when_changed` - closed under the global context
* C15: `C15_pointerlist_roundtrip`, `C15_bytes_roundtrip`, `C15_serialisable_iff_fits`, `C15_rejects_partial_pointers`, `C15_from_file` - closed under the global context
* C16: `C16_get_index`, `C16_get`, `C16_has`, `C16_find_first_greater_equals`, `C16_search_terminates` - closed under the global context
* C17: `C17_history`, `C17_add`, `C17_add_succeeds`, `C17_remove`, `C17_check_sorted_exact` - closed under the global context
* C18: `C18_mass_update`, `C18_mass_update_total` - closed under the global context
* C19: `C19_refuted`, `C19_iter_values_refuted`, `C19_iter_values_yields_nothing`, `C19_index_access_partial`, `C19_iteration_partial`, `C19_lookup_partial`, `C19_memory_reverse_lookup_partial` - closed under the global context
* C20: `C20_refuted`, `C20_refuted_silently`, `C20_counter_roundtrip_partial`, `C20_counter_bytes_partial` - closed under the global context
* C21: `C21_refuted`, `C21_refuted_to_redirect`, `C21_refuted_cached`, `C21_counts_exact_partial`, `C21_counts_stay_exact_partial`, `C21_reinit_exact`, `C21_never_negative`, `C21_decrement` - closed under the global context
* C22: `C22_utf8_decode_encode`, `C22_utf8_encode_decode`, `C22_utf8_order`, `C22_utf8_prefix`, `C22_utf8_total` - closed under the global context
* C23: `C23_infobyte_roundtrip`, `C23_known_parses`, `C23_unknown_rejected` - closed under the global context
* C24: `C24_refuted`, `C24_reader_returns_stream_partial`, `C24_reader_within_stream`, `C24_compressed_size`, `C24_passthrough`, `C24_passthrough_no_end`, `C24_zlib_partial`, `C24_zstd_partial`, `C24_zstd_end_refuted` - closed under the global context
* C25: `C25_stored_blobs_read_back`, `C25_written_cluster_reads_back`, `C25_uncompressed` - closed under the global context
* C26: `C26_leak`, `C26_refuted`, `C26_reads_are_slices_partial`, `C26_in_memory_all_ranges`, `C26_read_blob_all_ranges` - closed under the global context
* C27: `C27_sizes_agree_with_written` - closed under the global context
* C28: `C28_width_of_pointers` - closed under the global context
* C29: `C29_edits_like_list_edits_partial`, `C29_wrong_blob`, `C29_refuted`, `C29_wrong_count` - closed under the global context
* C30: `C30_linked_list` - closed under the global context
* C31: `C31_lru_most_recent`, `C31_lru_refines_recency_list` - closed under the global context
* C32: `C32_lru_get`, `C32_top_get`, `C32_noop_get`, `C32_push_cached`, `C32_push_tells`, `C32_hybrid_get_partial`, `C32_hybrid_missing`, `C32_refuted` - closed under the global context
* C33: `C33_lru_leave`, `C33_top_leave`, `C33_hybrid_leave_partial`, `C33_refuted` - closed under the global context
* C34: `C34_lru_bounded`, `C34_top_bounded`, `C34_hybrid_bounded_partial`, `C34_refuted` - closed under the global context
* C35: `C35_top_evicts_tail_partial`, `C35_top_refines_list`, `C35_refuted` - closed under the global context
* C36: `C36_lru_unlocked`, `C36_top_unlocked_partial`, `C36_refuted` - closed under the global context
* C37: `C37_added_entry_is_found`, `C37_added_content_is_equal`, `C37_other_lookups_unchanged`, `C37_writing_succeeds`, `C37_only_failure`, `C37_depth` - closed under the global context
* C38: `C38_redirects_survive_additions`, `C38_no_new_redirects` - closed under the global context
* C39: `C39_in_place_partial`, `C39_moved_partial`, `C39_writing_succeeds_partial`, `C39_refuted` - closed under the global context
* C40: `C40_additions_partial`, `C40_edits_in_place_partial`, `C40_edits_partial`, `C40_defect`, `C40_refuted` - closed under the global context
* C41: `C41_articles`, `C41_articles_sorted`, `C41_entry_titles` - closed under the global context
* C42: `C42_removal_partial`, `C42_removal_succeeds_partial`, `C42_refuted`, `C42_removal_with_redirects_partial`, `C42_interference_refuted` - closed under the global context
* C43: `C43_adding_entries`, `C43_editing_entries_partial`, `C43_removing_entries_partial`, `C43_writing_clusters`, `C43_space_of_clusters`, `C43_any_outcome_partial`, `C43_any_removal`, `C43_refuted` - closed under the global context
* C44: `C44_interrupted_write`, `C44_between_chunks` - closed under the global context
* C45: `C45_numbers_partial`, `C45_returned_number_partial`, `C45_removal_succeeds`, `C45_new_cluster_succeeds`, `C45_wrong`, `C45_refuted` - closed under the global context
* C46: `C46_flush_then_open_partial`, `C46_new_archive_partial`, `C46_refuted`, `C46_any_history_partial`, `C46_any_new_partial`, `C46_after_addition_partial`, `C46_after_addition_new_partial` - closed under the global context
* C47: `C47_terminates`, `C47_flush`, `C47_add_then_flush`, `C47_all_resolved`, `C47_some_unresolved`, `C47_order`, `C47_finalize` - closed under the global context
* C48: `C48_items`, `C48_size_partial`, `C48_refuted` - closed under the global context
* C49: `C49_articles_partial`, `C49_no_term_partial`, `C49_entries_partial`, `C49_refuted`, `C49_complete_title_refuted` - closed under the global context
* C50: `C50_all_partial`, `C50_range_partial`, `C50_pages`, `C50_refuted` - closed under the global context
* C51: `C51_groups_partial`, `C51_each_url_once`, `C51_no_url_twice`, `C51_without_redirects`, `C51_refuted` - closed under the global context
* C52: `C52_resolve_partial`, `C52_result_partial`, `C52_no_self_redirect`, `C52_refuted` - closed under the global context
* C53: `C53_metadata_keys` - closed under the global context
* C54: `C54_refuted`, `C54_terminates_iff_zero_partial`, `C54_result_partial` - closed under the global context
* C55: `C55_concurrent_registration`, `C55_no_deadlock`, `C55_every_call_answered` - closed under the global context
* C56: `C56_refuted`, `C56_own_number_refuted`, `C56_one_at_a_time_partial`, `C56_single_thread` - closed under the global context
* C57: `C57_dirty_propagates`, `C57_old_size` - closed under the global context
* C58: `C58_refuted`, `C58_get_partial`, `C58_has_partial`, `C58_unregister_partial` - closed under the global context
* C59: `C59_memory_blob_reads`, `C59_memory_blob_all`, `C59_memory_blob_read`, `C59_entry_blob` - closed under the global context
* C60: `C60_items_survive`, `C60_new_archive` - closed under the global context
* C61: `C61_accepted`, `C61_is_article`, `C61_storable_partial`, `C61_rejected_partial`, `C61_refuted` - closed under the global context
* C62: `C62_clean_is_unchanged`, `C62_clean_flush`, `C62_same_value`, `C62_unchanged_is_clean`, `C62_flush_twice`, `C62_edits_are_saved_partial`, `C62_flush_succeeds_partial`, `C62_refuted` - closed under the global context
* C63: `C63_removal_partial`, `C63_refuted` - closed under the global context
* C64: `C64_reads_are_slices_partial`, `C64_senseless`, `C64_start_alone`, `C64_refuted` - closed under the global context
* C65: `C65_archive_is_a_table`, `C65_new_archive` - closed under the global context
* C66: `C66_lost_update`, `C66_key_error`, `C66_refuted`, `C66_with_room_partial`, `C66_flushed_by_hand_partial` - closed under the global context
* C67: `C67_refuted`, `C67_noticed_partial` - closed under the global context
* C68: `C68_additions_partial`, `C68_new_archive_partial`, `C68_refuted` - closed under the global context
* C69: `C69_dirty_partial`, `C69_refuted` - closed under the global context
* C70: `C70_waiting_partial`, `C70_written_partial`, `C70_disabled_partial`, `C70_refuted` - closed under the global context
* C71: `C71_get_partial`, `C71_set_adds`, `C71_last_set_partial`, `C71_dict_partial`, `C71_refuted`, `C71_dict_refuted` - closed under the global context
* C72: `C72_copy_partial`, `C72_history_partial`, `C72_refuted`, `C72_pages_refuted`, `C72_main_page_first`, `C72_without_main_page`, `C72_with_main_page_partial`, `C72_history_main_partial` - closed under the global context
* C73: `C73_counter_partial`, `C73_new_archive_partial`, `C73_refuted`, `C73_load_counter`, `C73_recounted_partial` - closed under the global context
* C74: `C74_object_of_stored_cluster_partial`, `C74_object_of_new_cluster_partial`, `C74_refuted` - closed under the global context
* C75: `C75_title_position_partial`, `C75_refuted` - closed under the global context
* C76: `C76_list_history`, `C76_new_list`, `C76_immutable`, `C76_reads` - closed under the global context
* C77: `C77_one_list`, `C77_articles` - closed under the global context
* C78: `C78_refuted`, `C78_iter_clusters_partial` - closed under the global context
* C79: `C79_cache_is_transparent` - closed under the global context
* C80: `C80_refuted`, `C80_save_without_cache_partial`, `C80_remove_without_cache_partial` - closed under the global context
* C81: `C81_sessions_partial`, `C81_new_archive_partial`, `C81_refuted` - closed under the global context
* C82: `C82_calculate_partial`, `C82_update_partial`, `C82_truncated_file`, `C82_refuted` - closed under the global context
* C83: `C83_reads_partial`, `C83_in_memory`, `C83_calls`, `C83_refuted`, `C83_reset_refuted` - closed under the global context
* C84: `C84_lookups_partial`, `C84_never_wrong`, `C84_one_thread`, `C84_entries_default`, `C84_refuted`, `C84_missing_refuted` - closed under the global context
* C85: `C85_listening_is_harmless`, `C85_every_change_is_told_partial`, `C85_picture_is_kept_partial`, `C85_refuted` - closed under the global context
* C86: `C86_write_partial`, `C86_remove`, `C86_pages_partial`, `C86_other_data_partial`, `C86_refuted` - closed under the global context
* C87: `C87_without_counter`, `C87_with_counter_partial`, `C87_refused`, `C87_refuted`, `C87_reinit_partial` - closed under the global context
* C88: `C88_reading_partial`, `C88_reading_path`, `C88_closed`, `C88_close_partial`, `C88_reading_refuted`, `C88_close_refuted` - closed under the global context
* C89: `C89_recount`, `C89_new_archive` - closed under the global context
* C90: `C90_reading_partial`, `C90_failing_partial`, `C90_refuted`, `C90_titles_refuted`, `C90_open_refuted`, `C90_update_refuted` - closed under the global context
* C91: `C91_refuted`, `C91_uncompressed_partial`, `C91_get_search_partial` - closed under the global context
* C92: `C92_bind`, `C92_unbound`, `C92_one_archive_partial`, `C92_tidy_partial`, `C92_refuted`, `C92_wrapper` - closed under the global context
* C93: `C93_all`, `C93_range`, `C93_missing`, `C93_request` - closed under the global context
* C94: `C94_steps`, `C94_after_header_partial`, `C94_after_header_new_partial`, `C94_before_lists_partial`, `C94_before_lists_new_partial`, `C94_refuted` - closed under the global context
* C95: `C95_transparent`, `C95_flush_partial`, `C95_flush_new_partial`, `C95_unmodified`, `C95_close`, `C95_closed`, `C95_close_new_partial`, `C95_refuted` - closed under the global context
* C96: `C96_lru_others_partial`, `C96_top_others`, `C96_hybrid_others_partial`, `C96_top_room`, `C96_lru_refuses`, `C96_allowed_room`, `C96_refuted` - closed under the global context
* C97: `C97_transparent`, `C97_every_history`, `C97_failures`, `C97_notice_partial`, `C97_table_partial`, `C97_refuted` - closed under the global context
* C98: `C98_by_index`, `C98_mainpage`, `C98_iteration`, `C98_by_url_partial`, `C98_resolve_partial`, `C98_pages_partial`, `C98_lost`, `C98_refuted` - closed under the global context
* C99: `C99_transparent`, `C99_one_call`, `C99_flush_partial`, `C99_add_partial`, `C99_refuted` - closed under the global context
* C100: `C100_other_files`, `C100_reading`, `C100_exclusive`, `C100_new`, `C100_update`, `C100_translator_refuses`, `C100_translator_files_partial`, `C100_translation_partial`, `C100_refuted` - closed under the global context
* C101: `C101_lookup`, `C101_by_index`, `C101_any_cache` - closed under the global context
* C102: `C102_complete`, `C102_uuid`, `C102_pages`, `C102_values_partial`, `C102_refuted` - closed under the global context
* C103: `C103_table`, `C103_numbers`, `C103_strings`, `C103_history_partial` - closed under the global context
* C104: `C104_accepted`, `C104_kept`, `C104_refuted`, `C104_usable_partial`, `C104_module`, `C104_reported` - closed under the global context
