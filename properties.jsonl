{"id": "C01", "title": "Allocated regions never overlap live data", "statement": "A region returned by SpaceAllocator.allocate(n) never intersects a region that was allocated earlier (or belonged to the file when the allocator was created) and has not been given back with mark_free since.", "quantifier": "every history of allocate/mark_free calls, with any sizes and any order, starting from any file end", "why_tests_cant": "needs an invariant over unboundedly long histories; a test tries a few histories", "anchors": ["pyzim/spaceallocator.py:SpaceAllocator.allocate", "pyzim/spaceallocator.py:SpaceAllocator.mark_free"]}
{"id": "C02", "title": "Free space is conserved exactly", "statement": "The set of bytes the allocator regards as free is exactly: the bytes marked free so far that were not allocated again. allocate removes exactly the returned region (or extends the end of file), mark_free adds exactly the given region, nothing is lost or invented.", "quantifier": "every history of allocate/mark_free calls, all byte positions", "why_tests_cant": "a statement about every byte position after every history", "anchors": ["pyzim/spaceallocator.py:SpaceAllocator.allocate", "pyzim/spaceallocator.py:SpaceAllocator.mark_free"]}
{"id": "C03", "title": "Free list is canonical", "statement": "After any history the free list is sorted by position, all blocks have positive length, and no two blocks overlap or touch (adjacent free space is always merged), so fragmentation is never reported where there is none.", "quantifier": "every history of allocate/mark_free calls including overlapping and nested frees", "why_tests_cant": "invariant over all histories", "anchors": ["pyzim/spaceallocator.py:SpaceAllocator.mark_free", "pyzim/spaceallocator.py:SpaceAllocator.allocate"]}
{"id": "C04", "title": "Allocation is best fit and the file grows only when it must", "statement": "allocate(n) reuses the smallest sufficient free block when one exists and then leaves the end of file alone; otherwise the file end grows, and grows by less than n exactly when the last free block touches the end of file. The end of file never shrinks.", "quantifier": "every reachable allocator state and every requested size", "why_tests_cant": "quantifies over all states and sizes", "anchors": ["pyzim/spaceallocator.py:SpaceAllocator.allocate"]}
{"id": "C05", "title": "Header serialisation is lossless", "statement": "Header.from_bytes(h.to_bytes()) yields a header equal to h in every field, the serialised form is always exactly 80 bytes, and conversely to_bytes(from_bytes(b)) == b for every 80-byte string.", "quantifier": "all headers whose fields fit their on-disk width, all 80-byte strings", "why_tests_cant": "the input space is 2^640", "anchors": ["pyzim/header.py:Header.to_bytes", "pyzim/header.py:Header.from_bytes", "pyzim/header.py:Header.to_dict"]}
{"id": "C06", "title": "Header rejects what it cannot represent", "statement": "from_bytes raises for every input that is not 80 bytes long; to_bytes raises instead of truncating when any field does not fit in its on-disk width.", "quantifier": "all byte strings, all field values", "why_tests_cant": "all inputs", "anchors": ["pyzim/header.py:Header.from_bytes", "pyzim/header.py:Header.to_bytes"]}
{"id": "C07", "title": "A clean header is a persisted header", "statement": "After any sequence of attribute assignments and flushes a header that reports dirty == False serialises to exactly the bytes serialised at the last flush/read; assignments of an equal value do not make it dirty; an immutable header never changes.", "quantifier": "every history of setter calls (valid or invalid values) and flush events", "why_tests_cant": "unbounded histories", "anchors": ["pyzim/header.py:Header", "pyzim/modifiable.py:ModifiableMixIn"]}
{"id": "C08", "title": "Version gate is exact", "statement": "Header.check_compatible() returns without raising exactly for the ZIM magic number 72173914, major version 6 and minor version at least 1; otherwise it raises NotAZimFile or IncompatibleZimFile.", "quantifier": "all magic numbers and version pairs", "why_tests_cant": "all inputs", "anchors": ["pyzim/header.py:Header.check_compatible"]}
{"id": "C09", "title": "Entry serialisation is lossless", "statement": "Parsing the serialised form of a content or redirect entry, followed by arbitrary other data, yields an entry equal in all fields and consumes exactly the serialised bytes; the parse never depends on what follows in the file.", "quantifier": "all entries whose integers fit, whose namespace is one byte and whose url/title are NUL-free encodable strings; all trailing data", "why_tests_cant": "all strings and all surrounding file contents", "anchors": ["pyzim/entry.py:ContentEntry.to_bytes", "pyzim/entry.py:RedirectEntry.to_bytes", "pyzim/entry.py:BaseEntry.from_file", "pyzim/entry.py:ContentEntry.from_file", "pyzim/entry.py:RedirectEntry.from_file"]}
{"id": "C10", "title": "Entry size accounting is exact", "statement": "get_disk_size() of an entry equals the number of bytes to_bytes() produces, so the space the archive reserves for an entry is what the entry occupies.", "quantifier": "all entries, all unicode urls and titles", "why_tests_cant": "all strings", "anchors": ["pyzim/entry.py:ContentEntry.get_disk_size", "pyzim/entry.py:RedirectEntry.get_disk_size"]}
{"id": "C11", "title": "Content entries are never mistaken for redirects", "statement": "An entry written as a content entry is read back as a content entry and an entry written as a redirect is read back as a redirect.", "quantifier": "all entries", "why_tests_cant": "all inputs, including the reserved mimetype index", "anchors": ["pyzim/entry.py:BaseEntry.from_file", "pyzim/entry.py:ContentEntry"]}
{"id": "C12", "title": "Mimetype list serialisation is lossless", "statement": "MimeTypeList.from_file applied to the bytes written by to_bytes yields the same mimetypes in the same order, regardless of what follows in the file.", "quantifier": "all lists of non-empty NUL-free mimetypes, all trailing data", "why_tests_cant": "all lists", "anchors": ["pyzim/mimetypelist.py:MimeTypeList.to_bytes", "pyzim/mimetypelist.py:MimeTypeList.from_file", "pyzim/util/ioutil.py:read_until_zero"]}
{"id": "C13", "title": "Mimetype list size accounting is exact", "statement": "MimeTypeList.get_disk_size() equals the number of bytes written by to_bytes().", "quantifier": "all mimetype lists", "why_tests_cant": "all lists including the empty one", "anchors": ["pyzim/mimetypelist.py:MimeTypeList.get_disk_size", "pyzim/mimetypelist.py:MimeTypeList.to_bytes"]}
{"id": "C14", "title": "Mimetype indices are stable", "statement": "get_index(m, register=True) returns an index i with get(i) == m; once handed out an index keeps denoting the same mimetype whatever is registered later; a mimetype is never stored twice; the list is dirty afterwards iff something was added.", "quantifier": "every history of register/get_index/get calls", "why_tests_cant": "unbounded histories", "anchors": ["pyzim/mimetypelist.py:MimeTypeList.get_index", "pyzim/mimetypelist.py:MimeTypeList.register", "pyzim/mimetypelist.py:MimeTypeList.get"]}
{"id": "C15", "title": "Pointer list serialisation is lossless", "statement": "from_bytes(to_bytes(l)) has the same pointers as l for url, cluster and title pointer lists, the byte length is 8 (resp. 4) per pointer, and byte strings that are not a whole number of pointers are rejected.", "quantifier": "all lists of pointers that fit their width, all byte strings", "why_tests_cant": "all lists", "anchors": ["pyzim/pointerlist.py:SimplePointerList.to_bytes", "pyzim/pointerlist.py:SimplePointerList.from_bytes", "pyzim/pointerlist.py:TitlePointerList"]}
{"id": "C16", "title": "Ordered lookup is correct", "statement": "On a sorted list, has(key)/get(key)/get_index(key) find an element iff one with that key exists and return the first such element; find_first_greater_equals(key) returns the first position whose key is >= key.", "quantifier": "all sorted lists, all keys (present, absent, duplicate, extreme), any total key order", "why_tests_cant": "correctness of binary search over all lists and keys", "anchors": ["pyzim/pointerlist.py:binarysearch", "pyzim/pointerlist.py:OrderedPointerList.get", "pyzim/pointerlist.py:OrderedPointerList.get_index", "pyzim/pointerlist.py:OrderedPointerList.has", "pyzim/pointerlist.py:OrderedPointerList.find_first_greater_equals"]}
{"id": "C17", "title": "Ordered lists stay sorted", "statement": "After any sequence of add/remove calls an ordered pointer list is sorted, contains exactly the added-and-not-removed pointers, and passes check_sorted.", "quantifier": "every history of add and remove with any keys", "why_tests_cant": "unbounded histories", "anchors": ["pyzim/pointerlist.py:OrderedPointerList.add", "pyzim/pointerlist.py:OrderedPointerList.remove", "pyzim/pointerlist.py:OrderedPointerList.check_sorted"]}
{"id": "C18", "title": "Mass update shifts exactly the pointers in range", "statement": "mass_update(diff, start, end) adds diff to exactly the pointers p with start <= p < end (bounds optional), preserves list order and length, and reports dirty only if it may have changed something.", "quantifier": "all lists, diffs and bounds", "why_tests_cant": "all inputs", "anchors": ["pyzim/pointerlist.py:SimplePointerList.mass_update"]}
{"id": "C19", "title": "On-disk pointer lists agree with in-memory ones", "statement": "For the same bytes every read operation (len, get_by_index for valid indices, iteration with any bounds, key lookup, reverse lookup by pointer) gives the same result on an on-disk list as on an in-memory list.", "quantifier": "all file contents, offsets, list lengths and query arguments", "why_tests_cant": "all files and queries", "anchors": ["pyzim/pointerlist.py:OnDiskSimplePointerList", "pyzim/pointerlist.py:OnDiskOrderedPointerList", "pyzim/pointerlist.py:SimplePointerList.get_by_pointer"]}
{"id": "C20", "title": "Counter string round trip", "statement": "Counter.from_string(c.to_string()) has the same non-zero counts as c.", "quantifier": "all counters over mimetypes, including mimetypes with parameters such as 'text/html; charset=utf-8' and parameters containing '='", "why_tests_cant": "all strings", "anchors": ["pyzim/counter.py:Counter.to_string", "pyzim/counter.py:Counter.from_string"]}
{"id": "C21", "title": "Counter equals the number of entries", "statement": "After any history of entry writes and removals the counter for each mimetype equals the number of non-redirect entries in the content namespace having that mimetype.", "quantifier": "every history of new entries, updates (mimetype, namespace, content<->redirect) and removals", "why_tests_cant": "unbounded histories", "anchors": ["pyzim/counter.py:Counter.after_entry_write", "pyzim/counter.py:Counter.after_entry_remove", "pyzim/counter.py:Counter.increment_count", "pyzim/counter.py:Counter.decrement_count"]}
{"id": "C22", "title": "UTF-8 keys order as strings", "statement": "Sorting and searching by the encoded url/title agrees with ordering by unicode code point and a title starts with a term iff its encoding starts with the encoded term; decode(encode(s)) == s.", "quantifier": "all unicode strings", "why_tests_cant": "all strings", "anchors": ["pyzim/archive.py:Zim._get_full_url_for_entry_at", "pyzim/search.py:TitleStartSearch.search", "pyzim/constants.py:ENCODING"]}
{"id": "C23", "title": "Cluster information byte", "statement": "The information byte written for (compression, extended) holds them in bits 0-3 and bit 4 and parses back to the same pair for every real compression type; every byte whose bits 0-3 are a known compression parses to that pair and every other byte is rejected as unsupported.", "quantifier": "all compression types x extended flag, all 256 byte values", "why_tests_cant": "the parse must be total", "anchors": ["pyzim/cluster.py:Cluster.parse_infobyte", "pyzim/cluster.py:Cluster.generate_infobyte", "pyzim/compression.py:CompressionType"]}
{"id": "C24", "title": "Streaming reader returns exactly the stream", "statement": "For a reader over compressed data, any sequence of read/read_n/skip/skip_to/iter_read/reseek calls returns exactly the corresponding slices of the decompressed stream, independent of how the data is chunked by buffer size, decompressor buffering or the requested amounts.", "quantifier": "all streams, all call sequences, all buffer sizes, all decompressors meeting the documented contract", "why_tests_cant": "all chunkings and call sequences", "anchors": ["pyzim/compression.py:DecompressingReader", "pyzim/compression.py:PassthroughDecompressor"]}
{"id": "C25", "title": "Stored blobs are read back", "statement": "For every list of blobs written as a cluster (any compression that round-trips, extended or not), the cluster reports that number of blobs, and read_blob(i) returns exactly blob i, and get_blob_size(i) its length; out-of-range i raises BlobNotFound.", "quantifier": "all lists of blobs, all indices, all previous read positions of the reader", "why_tests_cant": "all blob lists", "anchors": ["pyzim/cluster.py:ModifiableClusterWrapper.iter_write", "pyzim/cluster.py:Cluster.read_blob", "pyzim/cluster.py:Cluster.get_offset", "pyzim/cluster.py:Cluster.get_blob_size"]}
{"id": "C26", "title": "Partial reads are slices", "statement": "read_blob(i, start, end) and the concatenation of iter_read_blob(i, start, end) both equal blob[start:end] for all non-negative start/end, including ranges that lie partly or wholly beyond the blob, and never expose bytes of other blobs.", "quantifier": "all blobs, all start/end, all buffer sizes", "why_tests_cant": "all ranges", "anchors": ["pyzim/cluster.py:Cluster.read_blob", "pyzim/cluster.py:Cluster.iter_read_blob", "pyzim/cluster.py:InMemoryCluster.read_blob", "pyzim/cluster.py:ModifiableClusterWrapper.iter_read_blob"]}
{"id": "C27", "title": "Cluster size accounting is exact", "statement": "get_disk_size(), get_total_decompressed_size(), get_content_size(), get_number_of_offsets() and iter_blob_offsets() of a modified cluster agree with the bytes iter_write() produces.", "quantifier": "all modified clusters", "why_tests_cant": "all blob lists and edits", "anchors": ["pyzim/cluster.py:ModifiableClusterWrapper.get_disk_size", "pyzim/cluster.py:ModifiableClusterWrapper.iter_blob_offsets", "pyzim/cluster.py:ModifiableClusterWrapper.get_total_decompressed_size"]}
{"id": "C28", "title": "Extended offsets are used when needed", "statement": "Unless an offset width was explicitly forced, a modified cluster is written with 8-byte offsets exactly when its uncompressed data (with 4-byte offsets) would reach 2^32 bytes (a cluster that still holds its original blobs may keep its width); whenever writing succeeds every written offset fits its width, none is truncated.", "quantifier": "all blob sizes", "why_tests_cant": "needs blobs of gigabytes", "anchors": ["pyzim/cluster.py:ModifiableClusterWrapper.is_extended", "pyzim/cluster.py:ModifiableClusterWrapper._iter_write_raw"]}
{"id": "C29", "title": "Edits of a cluster behave like edits of a list of blobs", "statement": "After any sequence of append_blob/set_blob/remove_blob/empty_blob/reset the wrapper reads like the python list obtained by the same list operations on the original blobs.", "quantifier": "every history of edits on every original cluster", "why_tests_cant": "unbounded edit histories", "anchors": ["pyzim/cluster.py:ModifiableClusterWrapper.remove_blob", "pyzim/cluster.py:ModifiableClusterWrapper.set_blob", "pyzim/cluster.py:ModifiableClusterWrapper.append_blob", "pyzim/cluster.py:ModifiableClusterWrapper._adjust_index"]}
{"id": "C30", "title": "Recency list structure", "statement": "The linked list behind the caches behaves like a sequence under any history of prepend/append/insert/move/remove/pop: forward and backward traversals agree, its length is right, removed elements are gone.", "quantifier": "every history of list operations", "why_tests_cant": "pointer structure invariant", "anchors": ["pyzim/cache.py:_DoubleLinkedList", "pyzim/cache.py:_DoubleLinkedListElement"]}
{"id": "C31", "title": "LRU cache keeps exactly the most recently used", "statement": "A LastAccessCache of size n>0 contains exactly the n most recently pushed or read keys (fewer if fewer were used), with for each the value pushed last.", "quantifier": "every history of push/get/has/remove/clear", "why_tests_cant": "unbounded histories", "anchors": ["pyzim/cache.py:LastAccessCache"]}
{"id": "C32", "title": "Caches return what was pushed", "statement": "get(key) on any cache returns the value most recently pushed under that key or raises KeyError; it never returns a superseded or foreign value. push() tells whether the value is in the cache now.", "quantifier": "every history on each cache kind", "why_tests_cant": "unbounded histories", "anchors": ["pyzim/cache.py:LastAccessCache", "pyzim/cache.py:TopAccessCache", "pyzim/cache.py:HybridCache", "pyzim/cache.py:NoOpCache"]}
{"id": "C33", "title": "Eviction callback fires exactly once", "statement": "Every pushed value that is dropped from the cache by eviction, remove or clear is passed to on_leave exactly once and on_leave is called for no other reason, so dirty objects are neither lost nor flushed while still cached.", "quantifier": "every history on each cache kind", "why_tests_cant": "unbounded histories", "anchors": ["pyzim/cache.py:LastAccessCache", "pyzim/cache.py:TopAccessCache", "pyzim/cache.py:HybridCache"]}
{"id": "C34", "title": "Caches are bounded", "statement": "The number of cached elements never exceeds the configured size.", "quantifier": "every history, every size", "why_tests_cant": "unbounded histories", "anchors": ["pyzim/cache.py:LastAccessCache", "pyzim/cache.py:TopAccessCache", "pyzim/cache.py:HybridCache"]}
{"id": "C35", "title": "Frequency cache evicts a least accessed element", "statement": "When a TopAccessCache evicts, the evicted element is one with the lowest access count among the cached ones, and it is replaced only by an element accessed at least as often.", "quantifier": "every history", "why_tests_cant": "unbounded histories", "anchors": ["pyzim/cache.py:TopAccessCache"]}
{"id": "C36", "title": "Eviction callbacks run outside the cache lock", "statement": "on_leave is never called while the cache holds its own non-reentrant lock, so a callback that uses the cache (as the archive's autoflush does) cannot deadlock.", "quantifier": "every operation of every cache in every state", "why_tests_cant": "absence of deadlock in every state", "anchors": ["pyzim/cache.py:LastAccessCache.push", "pyzim/cache.py:TopAccessCache.push", "pyzim/archive.py:Zim._on_entry_cache_leave"]}
{"id": "C37", "title": "Url lookup sees every written entry", "statement": "After write_entry(e) of a new entry, get_entry_by_full_url(e.full_url) returns an entry equal to e, and for every other url the lookup result is unchanged.", "quantifier": "all archives, all entries", "why_tests_cant": "all archive states", "anchors": ["pyzim/archive.py:Zim.write_entry", "pyzim/archive.py:Zim.get_entry_by_full_url"]}
{"id": "C38", "title": "Redirect targets survive additions", "statement": "Adding an entry with a new url leaves every existing redirect pointing at the same target url, at whatever position the new entry is inserted.", "quantifier": "all archives, all redirects, all insertion positions", "why_tests_cant": "all archive states", "anchors": ["pyzim/archive.py:Zim.write_entry", "pyzim/archive.py:Zim._update_url_pointers"]}
{"id": "C39", "title": "Redirect targets survive edits", "statement": "Rewriting an entry (title or url or mimetype changed) leaves every redirect, including redirects to it and the entry's own target, pointing at the same entry.", "quantifier": "all archives and edits", "why_tests_cant": "all archive states", "anchors": ["pyzim/archive.py:Zim.write_entry", "pyzim/archive.py:Zim._update_url_pointers"]}
{"id": "C40", "title": "Main page survives additions and edits", "statement": "Writing entries other than the main page leaves get_mainpage_entry() denoting the same entry.", "quantifier": "all archives, all insertion positions", "why_tests_cant": "all archive states", "anchors": ["pyzim/archive.py:Zim._update_url_pointers", "pyzim/archive.py:Zim.get_mainpage_entry"]}
{"id": "C41", "title": "Title lists stay complete and sorted", "statement": "After adding an entry the entry title list and article title list refer to the same entries as before plus the new one, and stay sorted by title.", "quantifier": "all archives, all new entries", "why_tests_cant": "all archive states", "anchors": ["pyzim/archive.py:Zim.write_entry", "pyzim/archive.py:Zim.iter_articles", "pyzim/archive.py:Zim._update_url_pointers"]}
{"id": "C42", "title": "Removal removes exactly the entry and its redirects", "statement": "remove_entry_by_full_url(u) removes u and, transitively, the redirects to it; all other entries, redirects, title lists and the main page keep denoting the same entries.", "quantifier": "all archives, all urls", "why_tests_cant": "all archive states and redirect graphs", "anchors": ["pyzim/archive.py:Zim.remove_entry_by_full_url"]}
{"id": "C43", "title": "Writing never clobbers live data", "statement": "write_entry and write_cluster only write into freshly allocated space (or in place over the very entry being rewritten); the bytes of every other live entry and cluster are unchanged.", "quantifier": "all archives, all entries and clusters", "why_tests_cant": "all archive states", "anchors": ["pyzim/archive.py:Zim.write_entry", "pyzim/archive.py:Zim.write_cluster"]}
{"id": "C44", "title": "Interrupted cluster rewrite keeps the old cluster", "statement": "If the process stops at any point while write_cluster is writing, the previous version of that cluster and all other live data are still intact in the file.", "quantifier": "every prefix of the written chunks", "why_tests_cant": "all crash points", "anchors": ["pyzim/archive.py:Zim.write_cluster"]}
{"id": "C45", "title": "Cluster numbers keep denoting their cluster", "statement": "Writing or removing one cluster does not change which cluster any other cluster number denotes.", "quantifier": "every history of write_cluster/remove_cluster_by_index", "why_tests_cant": "unbounded histories", "anchors": ["pyzim/archive.py:Zim.write_cluster", "pyzim/archive.py:Zim.remove_cluster_by_index", "pyzim/archive.py:Zim.get_cluster_index_by_offset"]}
{"id": "C46", "title": "Flush then open restores the archive", "statement": "Opening the file produced by flush()/close() yields the same header, mimetypes, url pointers, cluster pointers and title pointers, and the stored checksum equals the checksum of the data before it.", "quantifier": "all archive states", "why_tests_cant": "all archive states", "anchors": ["pyzim/archive.py:Zim.flush", "pyzim/archive.py:Zim.update_checksum", "pyzim/archive.py:Zim.calculate_checksum"]}
{"id": "C47", "title": "Buffered redirects are resolved independent of order", "statement": "Flushing the operation buffer terminates and writes exactly those buffered redirects whose target chain ends in an existing entry, whatever order they were added in; if any remains unresolvable an UnresolvedRedirect is raised and exactly the unresolvable ones stay buffered.", "quantifier": "all sets of redirects in all orders, chains of any length, cycles", "why_tests_cant": "all orders and chain lengths", "anchors": ["pyzim/operationbuffer.py:OperationBuffer.finalize_entry_dependent_operations", "pyzim/operationbuffer.py:OperationBuffer._apply_redirects"]}
{"id": "C48", "title": "Every added item ends up readable", "statement": "After adding items through a compression strategy and flushing it, every item has been written exactly once as an entry whose cluster and blob number denote exactly the item's content, and no cluster exceeds the size limit unless it holds a single item.", "quantifier": "all sequences of items, all limits, all mimetypes", "why_tests_cant": "unbounded sequences", "anchors": ["pyzim/compressionstrategy.py:SimpleCompressionStrategy", "pyzim/compressionstrategy.py:MimetypeBasedCompressionStrategy"]}
{"id": "C49", "title": "Title prefix search is exact", "statement": "A title-start search returns exactly the entries whose title starts with the term, in title order, and reports their number.", "quantifier": "all archives, all unicode terms", "why_tests_cant": "all strings", "anchors": ["pyzim/search.py:TitleStartSearch.search", "pyzim/search.py:TitleStartSearch.search_in_range"]}
{"id": "C50", "title": "Search pagination is complete", "statement": "Iterating a search result set (in pages of any size) yields every match exactly once in order, numbered consecutively from 1.", "quantifier": "all result counts, start positions and page sizes", "why_tests_cant": "all sizes", "anchors": ["pyzim/search.py:SearchResultSet.__iter__", "pyzim/search.py:SearchResultSet.iter_in_range", "pyzim/search.py:SearchResult"]}
{"id": "C51", "title": "iter_by_cluster visits each url once, cluster by cluster", "statement": "iter_by_cluster yields the url of every entry of the archive exactly once, grouping urls of the same cluster together in blob order, with redirects last.", "quantifier": "all archives", "why_tests_cant": "all lists", "anchors": ["pyzim/util/iter.py:iter_by_cluster"]}
{"id": "C52", "title": "Redirect resolution terminates", "statement": "entry.resolve() returns the content entry at the end of the redirect chain.", "quantifier": "all redirect graphs", "why_tests_cant": "all graphs, including cyclic ones", "anchors": ["pyzim/entry.py:RedirectEntry.resolve", "pyzim/entry.py:RedirectEntry.follow"]}
{"id": "C53", "title": "Metadata keys are exactly the metadata entries", "statement": "get_metadata_keys() returns the urls of exactly the entries in namespace M, in order.", "quantifier": "all sorted url lists", "why_tests_cant": "all archives", "anchors": ["pyzim/archive.py:Zim.get_metadata_keys"]}
{"id": "C54", "title": "Parsing terminates", "statement": "Reading NUL-terminated strings (mimetype list, url, title) returns or raises for every input, including truncated files.", "quantifier": "all byte strings", "why_tests_cant": "all inputs, including truncated files", "anchors": ["pyzim/util/ioutil.py:read_until_zero", "pyzim/mimetypelist.py:MimeTypeList.from_file"]}
{"id": "C55", "title": "Concurrent mimetype registration agrees", "statement": "When several threads register mimetypes concurrently, threads registering the same mimetype get the same index, different mimetypes get different indices and no duplicate is stored.", "quantifier": "all interleavings of any number of threads", "why_tests_cant": "all schedules", "anchors": ["pyzim/mimetypelist.py:MimeTypeList.get_index", "pyzim/mimetypelist.py:MimeTypeList.register"]}
{"id": "C56", "title": "Concurrent cluster numbering is unique", "statement": "Two threads creating clusters concurrently never obtain the same cluster number.", "quantifier": "all interleavings", "why_tests_cant": "all schedules", "anchors": ["pyzim/archive.py:Zim._new_cluster_num"]}
{"id": "C57", "title": "Dirty state propagates", "statement": "An object with sub-objects reports dirty iff it or any transitive sub-object was modified since its last flush; the old disk size it reports is the size at the last flush.", "quantifier": "all object trees and histories", "why_tests_cant": "unbounded trees and histories", "anchors": ["pyzim/modifiable.py:ModifiableMixIn"]}
{"id": "C58", "title": "Compression registry lookups", "statement": "has(type) is true exactly when get(type) succeeds, and get(type) returns the earliest registered interface that was not unregistered.", "quantifier": "every history of register/unregister", "why_tests_cant": "unbounded histories", "anchors": ["pyzim/compression.py:CompressionRegistry"]}
{"id": "C59", "title": "Chunked blob sources deliver their data", "statement": "Reading an in-memory blob or an entry blob with any sequence of read sizes returns consecutive slices that concatenate to the data, whose length is get_size().", "quantifier": "all data, all read size sequences", "why_tests_cant": "all sequences", "anchors": ["pyzim/blob.py:InMemoryBlob", "pyzim/blob.py:EntryBlob"]}
{"id": "C60", "title": "Whatever is added survives flushing, closing and reopening", "statement": "After any sequence of add_item, flush and close/reopen that ends with a flush, opening the file shows every item ever added with its url, title, mimetype and content, one entry per item besides the entries from before, the new articles in the article list, and all entries and contents from before unchanged; a new archive contains nothing but the items and the entry for its article title list.", "quantifier": "all histories of add_item/flush/close+open, all item contents, all compression strategies and cluster limits, all archives in order and all new archives", "why_tests_cant": "unbounded histories and arbitrary contents; each flush moves and rewrites lists in a file with arbitrary free space", "anchors": ["pyzim/archive.py:Zim.add_item", "pyzim/archive.py:Zim.flush", "pyzim/archive.py:Zim.close", "pyzim/archive.py:Zim.open", "pyzim/archive.py:Zim._init_new"]}
{"id": "C61", "title": "Assignments to an entry are all-or-nothing and keep it storable", "statement": "Assigning namespace, url, title, full_url, mimetype, mimetype_id, is_article, cluster_number, blob_number or redirect_index of an entry either raises and changes nothing, or sets exactly that attribute and leaves an entry that can be written and read back.", "quantifier": "all entries, all values of type str, bytes, int or bool, all mimetype lists", "why_tests_cant": "arbitrary unicode text, undecodable bytes, NUL, numbers at the borders of the field widths", "anchors": ["pyzim/entry.py:BaseEntry.full_url", "pyzim/entry.py:BaseEntry.namespace", "pyzim/entry.py:BaseEntry.url", "pyzim/entry.py:BaseEntry.title", "pyzim/entry.py:BaseEntry.is_article", "pyzim/entry.py:BaseEntry.mimetype"]}
{"id": "C62", "title": "Flushing an entry saves exactly its edits", "statement": "After any assignments to an entry obtained from the archive, entry.flush() makes the archive return the edited entry under its new url, nothing under the old one, all other entries unchanged and the article list updated; an entry whose attributes did not change is not written; a second flush does nothing.", "quantifier": "all consistent archives, all entries, all sequences of assignments (including rejected ones)", "why_tests_cant": "arbitrary sequences of edits that may cancel out, rename across namespaces, or change the article status", "anchors": ["pyzim/entry.py:BaseEntry.flush", "pyzim/archive.py:Zim.write_entry"]}
{"id": "C63", "title": "entry.remove() removes the entry the object was obtained for", "statement": "Calling remove() on an entry object removes the entry it was obtained for and no other, also if attributes were assigned before.", "quantifier": "all consistent archives, all entries, all sequences of assignments", "why_tests_cant": "the removed url depends on unsaved edits", "anchors": ["pyzim/entry.py:BaseEntry.remove", "pyzim/archive.py:Zim.remove_entry_by_full_url"]}
{"id": "C64", "title": "Reading an entry returns the slice asked for", "statement": "entry.read(start, end) returns content[start:end] for every sensible range and raises ValueError for any other, without reading.", "quantifier": "all stored clusters, compressions, entries and ranges (each bound possibly absent)", "why_tests_cant": "arbitrary ranges over arbitrarily chunked decompression", "anchors": ["pyzim/entry.py:ContentEntry.read"]}
{"id": "C65", "title": "An archive behaves like a table of pages", "statement": "For every sequence of calls that return normally - adding items at new urls or over content entries that no redirect leads to (until the archive is flushed again, only further items are then added, and none at the same url), adding redirects at new urls (redirects to urls that get their page later need a title), loading content entries that no redirect leads to, assigning title, url, mimetype and article status and flushing them, replacing the content of entries that share their data with no other entry, removing entries that no redirect leads to (articles, or entries that no article follows in url order), choosing the main page, flushing the archive, closing it and opening it again, in any order - the archive after a final flush, and the archive opened from its file, show at every url exactly the page that the same sequence of updates leaves in a plain table from urls to pages: same title, same article status, same mimetype and data or same redirect target, and nothing at any other url (apart from the archive's own title listings).", "quantifier": "all archives in order (including new ones), all sequences of such calls of any length, all compression strategies, all codecs that meet their contract", "why_tests_cant": "the effect depends on the whole history: pending clusters, buffered redirects, moved entries and list rewrites interact over unboundedly many operations", "anchors": ["pyzim/archive.py:Zim.add_item", "pyzim/archive.py:Zim.add_redirect", "pyzim/archive.py:Zim.write_entry", "pyzim/archive.py:Zim.remove_entry_by_full_url", "pyzim/archive.py:Zim.flush", "pyzim/entry.py:BaseEntry.flush", "pyzim/entry.py:BaseEntry.remove", "pyzim/entry.py:ContentEntry.set_content"]}
{"id": "C66", "title": "Edits read back and are saved by the next flush", "statement": "After entry.set_content(data) the entry reads back data, and after the archive's flush() an archive opened afresh shows it, no matter which other entries were edited, read, added or flushed in between and whether the clusters were flushed by hand; no such call raises.", "quantifier": "all archives in order, all sequences of content changes, reads, additions and flushes of any length, every size of the cluster cache, every allocation of space", "why_tests_cant": "the loss depends on which clusters the cache evicts while others are being written: any number of pending clusters, in any order", "anchors": ["pyzim/archive.py:Zim._on_cluster_cache_leave", "pyzim/archive.py:Zim.write_cluster", "pyzim/archive.py:Zim.get_cluster_at", "pyzim/archive.py:Zim.flush", "pyzim/entry.py:ContentEntry.set_content", "pyzim/cache.py:LastAccessCache"]}
{"id": "C67", "title": "Closing an archive saves its pending edits", "statement": "close() saves every change: after entry.set_content(data) and close(), the archive opened afresh shows data.", "quantifier": "all archives in order, all sequences of content changes, reads, additions and flushes followed by close", "why_tests_cant": "depends on what the archive knows about changes in cached objects after an arbitrary history", "anchors": ["pyzim/archive.py:Zim.close", "pyzim/archive.py:Zim.flush", "pyzim/entry.py:ContentEntry.set_content"]}
{"id": "C68", "title": "A flushed archive survives a crash before the next flush", "statement": "After flush() returned, items are added and possibly written, and the program ends without another flush. Whatever part of the data written since then has reached the disk, the file opens and shows exactly the pages that it showed after the flush().", "quantifier": "all archives in order (including new ones), all histories up to the flush, all sequences of added items, all crash points between calls, all subsets of the bytes written since the flush", "why_tests_cant": "crash points and the subsets of written bytes that reach the disk cannot be enumerated by tests", "anchors": ["pyzim/archive.py:Zim.flush", "pyzim/archive.py:Zim.add_item", "pyzim/archive.py:Zim.write_entry", "pyzim/archive.py:Zim.write_cluster", "pyzim/spaceallocator.py:SpaceAllocator.allocate", "pyzim/compressionstrategy.py:BaseCompressionStrategy.flush"]}
{"id": "C69", "title": "A flush that returns has written every redirect", "statement": "Redirects are added to an archive with nothing pending, and all calls return. If the following flush() returns as well, the archive has all of these redirects, each leading to its target, and so has the archive opened from the file; a redirect whose target does not exist makes flush() raise.", "quantifier": "all archives in order, all lists of redirects with different free source urls, in any order, with or without titles", "why_tests_cant": "which redirects can be written depends on the order of the calls, on chains and cycles among any number of redirects, and on what else was changed before", "anchors": ["pyzim/archive.py:Zim.add_full_url_redirect", "pyzim/archive.py:Zim.flush", "pyzim/operationbuffer.py:OperationBuffer.finalize_entry_dependent_operations", "pyzim/modifiable.py:ModifiableMixIn.dirty"]}
{"id": "C70", "title": "The main page that was chosen is the main page of the file", "statement": "After set_mainpage_url(url) for a page that exists or was added, and a flush() that returned, the main page of the archive, and of the archive opened from its file, is a redirect to that page; the last choice counts.", "quantifier": "all archives in order (including new ones), all histories of other changes before and after the choice, all pages", "why_tests_cant": "the main page is stored as an index that every later insertion may move, and the choice may have to wait for its page: it depends on the order of all calls", "anchors": ["pyzim/archive.py:Zim.set_mainpage_url", "pyzim/archive.py:Zim.flush", "pyzim/operationbuffer.py:OperationBuffer.buffer_set_mainpage_url", "pyzim/archive.py:Zim.get_mainpage_entry"]}
{"id": "C71", "title": "Metadata is read back as it was set", "statement": "After calls of set_metadata() that returned, get_metadata(key) returns the value that was set last for the key (None for a key that was never set), also in the archive opened from the file after a flush; get_metadata_dict() returns exactly the keys that were set, each with its value; redirects among metadata are followed.", "quantifier": "all archives in order (including new ones), all histories of changes, all keys, values, mimetypes and compression strategies", "why_tests_cant": "setting metadata adds an item that waits in a compression strategy and is written at some later flush: which value is found depends on the whole history and on the order in which waiting items are written", "anchors": ["pyzim/archive.py:Zim.set_metadata", "pyzim/archive.py:Zim.get_metadata", "pyzim/archive.py:Zim.get_metadata_dict", "pyzim/archive.py:Zim.get_metadata_keys", "pyzim/archive.py:Zim.flush", "pyzim/compressionstrategy.py:MimetypeBasedCompressionStrategy"]}
{"id": "C72", "title": "A copy of an archive has its pages", "statement": "When ZimTranslator, with its default handlers, translates an archive into a new one, translate() returns and the new archive, also when it is opened from its file, has exactly the pages of the other one (url, title, mimetype, content, redirect target, being an article), apart from the title lists and the counter which are generated, and the same main page.", "quantifier": "all archives made by histories of changes and opened from their file, all new archives with any compression strategies", "why_tests_cant": "the copy is made by adding items and redirects in the order of the clusters of the input, redirects often before their targets, and each page passes through two archives: whether it arrives depends on the whole input", "anchors": ["pyzim/util/translator.py:ZimTranslator.translate", "pyzim/util/translator.py:ZimTranslator.handle_redirect", "pyzim/util/translator.py:ZimTranslator.handle_item", "pyzim/util/translator.py:ZimTranslator.handle_header", "pyzim/util/translator.py:ZimTranslator.finalize", "pyzim/item.py:Item.from_entry", "pyzim/util/iter.py:iter_by_cluster", "pyzim/blob.py:EntryBlobSource"]}
{"id": "C73", "title": "The stored counter tells how many entries there are", "statement": "After flush() returns, the text in the metadata entry \"Counter\" gives for every mimetype the number of content entries in namespace C with that mimetype, also when the archive is opened from its file, and keeping the counter changes no other page.", "quantifier": "all archives with the counter switched on, new or opened from a file with a right counter, all sequences of added items and redirects, edits, changed contents, removals, chosen main pages, flushes, and closing and opening again", "why_tests_cant": "the counter is kept by differences: each written or removed entry changes it by what the entry was before, while items wait in compression strategies and the counter itself is written between content and title lists, so one miscounted step spoils it for good", "anchors": ["pyzim/counter.py:Counter.after_entry_write", "pyzim/counter.py:Counter.after_entry_remove", "pyzim/counter.py:Counter.after_content_flush", "pyzim/counter.py:Counter.load_from_archive", "pyzim/counter.py:Counter.on_install", "pyzim/archive.py:Zim.write_entry", "pyzim/archive.py:Zim.remove_entry_by_full_url", "pyzim/archive.py:Zim.flush", "pyzim/archive.py:Zim.install_processor"]}
{"id": "C74", "title": "A cluster object stays usable after it was written", "statement": "A cluster object got from get_cluster_by_index(n) or new_cluster() can be edited, read and flushed again and again: at any time it shows its blobs with all its edits (since the last reset), every flush() returns the number of the cluster, a cluster object got anew shows the blobs as they were flushed last, and other clusters and entries are unchanged.", "quantifier": "all archives in order, all stored and new clusters, all histories of edits, queries and flushes of one object, told its number or not", "why_tests_cant": "a flush moves the cluster to another place while the object keeps readers, caches and bookkeeping of the old place: what it answers later depends on all earlier calls", "anchors": ["pyzim/cluster.py:ModifiableClusterWrapper", "pyzim/cluster.py:Cluster.reset", "pyzim/archive.py:Zim.write_cluster", "pyzim/archive.py:Zim.get_cluster_by_index", "pyzim/archive.py:Zim.new_cluster", "pyzim/modifiable.py:ModifiableMixIn.after_flush_or_read"]}
{"id": "C75", "title": "The title position in the header leads to the entry title list", "statement": "In an archive of a version before 6.3, after flush() returns, the file holds at the title pointer position of the header the entry title list of the archive, so readers that know this position only find it; also after opening the file again.", "quantifier": "all archives in order with an entry title list in an uncompressed cluster whose position in the header is right, all sequences of added items, changed contents, flushes, and closing and opening again", "why_tests_cant": "the list is a blob in a cluster that is moved whenever anything in the cluster changes, while the position is an absolute one in another part of the file that is written at another time", "anchors": ["pyzim/archive.py:Zim.flush", "pyzim/archive.py:Zim.open", "pyzim/archive.py:Zim.write_cluster", "pyzim/cluster.py:ModifiableClusterWrapper.get_offset", "pyzim/entry.py:ContentEntry.set_content", "pyzim/header.py:Header"]}
{"id": "C76", "title": "A plain pointer list behaves like a list", "statement": "append(), set() and remove_by_index() in any order act on a plain pointer list as on a list, negative positions count from the end for set(); set() behind the end is refused with IndexError unless placeholders are asked for, in which case the pointer itself fills the gap; refused calls raise and change nothing, the list is dirty afterwards exactly if it was before or a call was accepted; reads by index and iteration over ranges answer what the list holds; an immutable list refuses every change.", "quantifier": "all pointer lists, all histories of changes and reads, all indices and pointers", "why_tests_cant": "what a call does depends on all the calls before it, and every index and value is possible", "anchors": ["pyzim/pointerlist.py:SimplePointerList", "pyzim/pointerlist.py:SimplePointerList.append", "pyzim/pointerlist.py:SimplePointerList.set", "pyzim/pointerlist.py:SimplePointerList.get_by_index", "pyzim/pointerlist.py:SimplePointerList.remove_by_index", "pyzim/pointerlist.py:SimplePointerList.iter_pointers"]}
{"id": "C77", "title": "All ways to find an entry agree", "statement": "An archive shows one list of entries, sorted by url and without duplicates: iterating over all entries gives it, iterating over a range gives that slice (and raises outside of it), access by index gives its elements and raises EntryNotFound otherwise, access by url (full url, or url in namespace C) gives the element with that url and raises EntryNotFound if there is none, and has_entry_for_full_url() tells which. Iterating over the articles gives a list sorted by title without duplicates, entry_at_url_is_article() tells exactly which entries of namespace C are in it.", "quantifier": "all archives in order (C41: what reading and editing lead to), all indices, ranges and urls", "why_tests_cant": "these calls go through different lists with binary searches over the file; whether they agree must be shown for every archive and every key", "anchors": ["pyzim/archive.py:Zim.iter_entries", "pyzim/archive.py:Zim.iter_articles", "pyzim/archive.py:Zim.get_entry_by_url_index", "pyzim/archive.py:Zim.get_entry_by_full_url", "pyzim/archive.py:Zim.get_entry_by_url", "pyzim/archive.py:Zim.get_content_entry_by_url", "pyzim/archive.py:Zim.has_entry_for_full_url", "pyzim/archive.py:Zim.entry_at_url_is_article"]}
{"id": "C78", "title": "Iterating over the clusters shows all of them", "statement": "iter_clusters() yields every cluster of the archive once, in the order of their numbers: the objects are those of get_cluster_by_index() and have the blobs of these clusters; a range yields that slice, a range outside of the archive raises IndexError.", "quantifier": "all archives in order, all ranges", "why_tests_cant": "the number of clusters is taken from the header, the clusters from a list that changes at other times: only histories of changes show whether both fit", "anchors": ["pyzim/archive.py:Zim.iter_clusters", "pyzim/archive.py:Zim.get_cluster_by_index", "pyzim/archive.py:Zim.write_cluster", "pyzim/archive.py:Zim.flush"]}
{"id": "C79", "title": "The entry cache does not change what is read", "statement": "Which entry cache the policy selects (none, least recently used, most often accessed, or both combined, with sizes of at least 1) makes no difference to look-ups: as long as no entry object is changed, each sequence of look-ups by url, index or position, of the main page, of metadata names, of iterations over entries and articles, of has/is-article questions and of resolved redirects gives the same entries and the same exceptions as reading the file each time.", "quantifier": "all archives, all cache classes and sizes, all sequences of look-ups, writable or not", "why_tests_cant": "what a cache holds depends on the whole history of look-ups; binary searches read through the cache too, so that one wrong hit misleads other look-ups", "anchors": ["pyzim/archive.py:Zim.get_entry_at", "pyzim/archive.py:Zim.get_entry_by_full_url", "pyzim/archive.py:Zim.get_entry_by_url_index", "pyzim/archive.py:Zim.iter_entries", "pyzim/archive.py:Zim.iter_articles", "pyzim/cache.py:LastAccessCache", "pyzim/cache.py:TopAccessCache", "pyzim/cache.py:HybridCache", "pyzim/cache.py:NoOpCache"]}
{"id": "C80", "title": "The entry cache does not change what edits do", "statement": "Which entry cache the policy selects makes no difference to changes made through entry objects: taking entries, changing their url or title, flushing them and removing entries ends with the same outcome and the same entries in the archive as without a cache; without a cache, flushing an object writes exactly its attributes and changes no other object.", "quantifier": "all archives, all cache classes and sizes, all histories of changes through objects", "why_tests_cant": "objects in the cache are changed before they are written, and everything that searches meanwhile reads the changed objects; which objects are cached depends on the history", "anchors": ["pyzim/archive.py:Zim.write_entry", "pyzim/archive.py:Zim.remove_entry_by_full_url", "pyzim/archive.py:Zim._on_entry_cache_leave", "pyzim/archive.py:Zim.get_entry_at", "pyzim/entry.py:BaseEntry.flush"]}
{"id": "C81", "title": "The space reserved for mimetypes may change between sessions", "statement": "An archive that was created under one policy can be opened for writing under a policy with another reserve_mimetype_space (an amount, or None); whatever is added in these sessions, the archive can be opened afterwards and everything that was added in any of them is found and read.", "quantifier": "all values of reserve_mimetype_space, all sequences of sessions, all items added in them", "why_tests_cant": "the mimetype list is only written over something else if the layout of an earlier session, the amount of reserved space and the number of new mimetypes combine in the wrong way", "anchors": ["pyzim/archive.py:Zim._init_new", "pyzim/archive.py:Zim.flush", "pyzim/policy.py:Policy", "pyzim/mimetypelist.py:MimeTypeList.get_disk_size"]}
{"id": "C82", "title": "The calculated checksum is that of the file", "statement": "calculate_checksum() returns the md5 of all bytes before the checksum position for every archive that can be opened; after update_checksum(), get_checksum() returns it, and all other bytes are unchanged.", "quantifier": "all files (of any length), all checksum positions", "why_tests_cant": "the file is read in chunks; whether the loop ends depends on the relation of file length and position, which tests only sample", "anchors": ["pyzim/archive.py:Zim.calculate_checksum", "pyzim/archive.py:Zim.get_checksum", "pyzim/archive.py:Zim.update_checksum"]}
{"id": "C83", "title": "Threads that read from one archive get the right blobs and do not wait for each other for ever", "statement": "Any number of threads that read blobs, sizes and offsets from cluster objects of one opened archive, sharing the objects or not, in one go or in chunks from generators, each get what the stored blobs say for every interleaving of their steps; no thread raises an exception the calls do not call for, and as long as not all of them are at their end one of them can go on.", "quantifier": "all numbers of threads, all sequences of calls of each, all interleavings of their accesses to the file, the lock and the attributes of the cluster objects, all three cluster classes", "why_tests_cant": "the number of interleavings is unbounded and depends on the scheduler; a test sees a few of them", "anchors": ["pyzim/archive.py:Zim.acquire_file", "pyzim/cluster.py:Cluster.read_infobyte_if_needed", "pyzim/cluster.py:Cluster._get_decompressing_reader", "pyzim/cluster.py:Cluster.iter_read_blob", "pyzim/cluster.py:OffsetRememberingCluster.iter_blob_offsets", "pyzim/cluster.py:InMemoryCluster._read_if_needed"]}
{"id": "C84", "title": "Threads that look up entries and clusters of one archive get what they asked for", "statement": "Any number of threads that call get_entry_at, get_entry_by_url_index, get_entry_by_full_url, has_entry_for_full_url, get_cluster_at and get_cluster_by_index on an archive opened for reading get, in every schedule and with every cache policy, the entry or cluster they asked for (or EntryNotFound, False or IndexError exactly if there is none), as if there were no cache and no other thread; no thread waits for ever.", "quantifier": "every archive with sorted entries (pointer lists in memory or on disk, any base offset), every cache class and size, every number of threads, every list of look-ups per thread, every interleaving of single steps, every moment at which an unlocked search in a cache misses a key that is being replaced", "why_tests_cant": "A race between two calls on a cache shows only if another thread runs between them; a test can try few of the interleavings and cannot force the scheduler to the bad one.", "anchors": ["pyzim/archive.py:Zim.get_entry_at", "pyzim/archive.py:Zim.get_cluster_at", "pyzim/archive.py:Zim.get_entry_by_full_url", "pyzim/archive.py:Zim.has_entry_for_full_url", "pyzim/archive.py:Zim.get_entry_by_url_index", "pyzim/archive.py:Zim.get_cluster_by_index", "pyzim/cache.py:LastAccessCache", "pyzim/cache.py:TopAccessCache", "pyzim/cache.py:HybridCache", "pyzim/pointerlist.py:OnDiskSimplePointerList.get_by_index"]}
{"id": "C85", "title": "Processors are told of every change of the entries", "statement": "Every write or removal of an entry that returns is told to the installed processors when it is done, after the redirects it had to renumber; each notice is true (the old entry is the one a look-up gave, an entry is called new iff there was none), and a processor that only listens can keep from the notices alone a table that agrees with every look-up by url. It does not change what the calls do.", "quantifier": "all archives in order, all sequences of additions, edits, renames and removals, all urls", "why_tests_cant": "a change can cascade into any number of rewritten redirects, each with its own notice; a missing, early or stale notice shows only for some positions of the redirects", "anchors": ["pyzim/archive.py:Zim.write_entry", "pyzim/archive.py:Zim.remove_entry_by_full_url", "pyzim/archive.py:Zim.install_processor", "pyzim/processor.py:BaseProcessor.after_entry_write", "pyzim/processor.py:BaseProcessor.after_entry_remove"]}
{"id": "C86", "title": "A call that fails loses nothing else", "statement": "Whatever writing or removing an entry returns or raises, every other entry is still listed at its place with its url, title and content location (only the numbers of redirect targets may change; a removal may take the redirects along), no two entries share a byte, all of them lie in space that is in use, and everything else in the file in use (header, clusters) keeps its bytes. The same after any number of such calls.", "quantifier": "all archives whose entries are laid out in order, all entry objects and urls, every outcome of each call, all sequences of calls", "why_tests_cant": "the calls have dozens of places where they can raise half-way, each leaving another mixture of old and new pointers, titles and free space; a test provokes few of them and rarely looks at the other entries afterwards", "anchors": ["pyzim/archive.py:Zim.write_entry", "pyzim/archive.py:Zim.remove_entry_by_full_url", "pyzim/spaceallocator.py:SpaceAllocator.mark_free", "pyzim/spaceallocator.py:SpaceAllocator.allocate", "pyzim/pointerlist.py:OrderedPointerList.add"]}
{"id": "C87", "title": "An archive can be opened for reading", "statement": "Every file that was written by this library can be opened in mode \"r\", whatever was written into it, and shows what was written. With the counter policies \"ignore\", \"load\", \"reinit\" and \"load_or_reinit\" (the default) the counter is then absent, the stored one or a recounted one, and right.", "quantifier": "all histories of additions, edits, removals, redirects, flushes and reopenings, all counter policies, all settings of the strategies", "why_tests_cant": "opening runs the same code as updating (loading a counter, installing it as a processor), some of which wants to write; whether it does depends on the entries the file happens to have", "anchors": ["pyzim/archive.py:Zim.__init__", "pyzim/archive.py:Zim.open", "pyzim/archive.py:Zim.install_processor", "pyzim/archive.py:Zim.add_item", "pyzim/counter.py:Counter.load_from_archive", "pyzim/counter.py:Counter.on_install"]}
{"id": "C88", "title": "An archive opened for reading, or closed, is not changed", "statement": "After opening with mode \"r\", no sequence of calls (adding, writing, removing, flushing, setting the main page or metadata, assigning to the header, registering mimetypes, updating the checksum, closing) changes a byte of the file or anything the archive shows; each method that changes archives raises NonMutable or ZimFileClosed. After close(), in any mode, no call changes the file, and close() can be called again.", "quantifier": "all files, all counter policies, all sequences of calls with any arguments, file objects that can be written to or not", "why_tests_cant": "the protection is a check at the start of each method; the claim is about every method and every order of calls, including calls after an exception or after close()", "anchors": ["pyzim/archive.py:Zim._check_closed", "pyzim/archive.py:Zim.close", "pyzim/archive.py:Zim.__exit__", "pyzim/archive.py:Zim.flush", "pyzim/archive.py:Zim.add_item", "pyzim/archive.py:Zim.write_entry", "pyzim/archive.py:Zim.update_checksum", "pyzim/modifiable.py:ModifiableMixIn.ensure_mutable"]}
{"id": "C89", "title": "A counter that is built from the entries is right", "statement": "When the counter of an archive is built by going through its entries (policy \"reinit\", or the default policy if there is no stored counter), this never fails for an archive written by this library, and the count of each mimetype is the number of content entries in namespace C with that mimetype.", "quantifier": "all consistent archives with legible mimetypes; all histories that wrote the file, opened in any mode", "why_tests_cant": "the count must be right for every set of entries, mimetypes and redirects, in whatever order they were written", "anchors": ["pyzim/counter.py:Counter.load_from_archive", "pyzim/counter.py:Counter.increment_count", "pyzim/counter.py:Counter._should_count_entry", "pyzim/archive.py:Zim.iter_entries"]}
{"id": "C90", "title": "An archive behind other data in its file reads as if it were alone", "statement": "An archive opened from a file object at an offset shows what it shows when it is alone in a file: the same header, mimetypes, main page and lists of titles, the same entry or exception for every url and index, the same iterations, the same blobs and the same checksums; what cannot be opened alone fails with the same exception.", "quantifier": "every file, every data in front of it, every url, index, range, cluster and blob number, every class of clusters and every decompressor", "why_tests_cant": "the data in front and the positions inside the archive are arbitrary, and a reader of a compressed cluster keeps positions across reads; a test uses one offset and one archive", "anchors": ["pyzim/archive.py:Zim.__init__", "pyzim/archive.py:Zim.open", "pyzim/archive.py:Zim.get_entry_at", "pyzim/archive.py:Zim.get_cluster_at", "pyzim/archive.py:Zim.get_checksum", "pyzim/archive.py:Zim.calculate_checksum", "pyzim/archive.py:Zim.update_checksum", "pyzim/archive.py:Zim.flush"]}
{"id": "C91", "title": "A search index is opened where its content lies", "statement": "The position in the file at which a Xapian index is opened is where the content of its entry starts, so that the library reads exactly that content from there; if there is no such entry, ZimFeatureMissing is raised. get_search() uses the full text index if there is one, else the title index, else the search for the start of titles, which is also used if the libraries are missing.", "quantifier": "all archives that this library has written (any history of changes), all urls, read-only and writable archives, every class of clusters, every compression and every content", "why_tests_cant": "the position depends on all clusters and blobs that were written before, on the width of the pointers and on the compression; a test opens one index", "anchors": ["pyzim/search.py:XapianSearch.__init__", "pyzim/search.py:XapianSearch._offset", "pyzim/search.py:XapianSearch.open_fulltext", "pyzim/search.py:XapianSearch.open_title", "pyzim/archive.py:Zim.get_search", "pyzim/cluster.py:Cluster.get_offset", "pyzim/cluster.py:ModifiableClusterWrapper.get_offset"]}
{"id": "C92", "title": "A cluster gives the data of the archive it is bound to", "statement": "Whatever was called before, a cluster object that is bound to an archive answers every call with what that archive holds at its offset; bind() raises AlreadyBound exactly if the object is bound to another archive, and then changes nothing; an unbound cluster raises BindRequired instead of giving data; a wrapper and the cluster in it are bound to the same archive unless the latter is bound on its own.", "quantifier": "all histories of bind(), unbind() and calls of a cluster, every number of archives, every class of clusters and every decompressor", "why_tests_cant": "what a cluster remembers depends on everything it was asked before and in which archive; a test binds one fresh object once", "anchors": ["pyzim/bindable.py:BindableMixIn.bind", "pyzim/bindable.py:BindableMixIn.unbind", "pyzim/bindable.py:BindableMixIn.bound", "pyzim/cluster.py:Cluster.reset", "pyzim/cluster.py:Cluster.read_blob", "pyzim/cluster.py:ModifiableClusterWrapper.bind", "pyzim/cluster.py:ModifiableClusterWrapper.unbind"]}
{"id": "C93", "title": "An index search shows the entries of all matching documents", "statement": "If the documents of a Xapian index are about entries of the archive (their data is the namespace, a slash and the url), iterating over the result of a search shows exactly the entries of the documents that match, each once, the best match first, numbered 1, 2, 3, ... over all pages, with their urls, titles and likelihoods; iter_in_range(start, n) shows the start-th to the (start+n-1)-th of them with the same numbers. A match whose url is not in the archive makes the iteration raise EntryNotFound.", "quantifier": "all archives, all terms, every list of matching documents of any length (Xapian is a parameter), every start and number of results", "why_tests_cant": "results are fetched in pages and put together by the caller; a test looks at a handful of results on one page", "anchors": ["pyzim/search.py:XapianSearch.search_in_range", "pyzim/search.py:SearchResultSet.__iter__", "pyzim/search.py:SearchResultSet.iter_in_range", "pyzim/search.py:SearchResult.__init__"]}
{"id": "C94", "title": "A flush that is interrupted leaves the old or the new archive", "statement": "If the program ends while flush() is running, the file that is found opens and shows either all pages as they were at the last completed flush or all pages with the changes since then, never a mixture and never an archive that cannot be read.", "quantifier": "all archives, all histories of changes before and after the last flush, all points between the steps of flush() and all subsets of the bytes written by then that may have reached the disk", "why_tests_cant": "A test interrupts a few flushes at a few points; which old data is overwritten depends on the sizes of all lists and gaps of the archive.", "anchors": ["pyzim/archive.py:Zim.flush", "pyzim/archive.py:Zim.update_checksum"]}
{"id": "C95", "title": "Processors are told when an archive is flushed and closed", "statement": "Each flush() tells the installed processors that it will begin, that all content has been written, and that it has ended, once each and in this order. When they are told that the content has been written, nothing waits any more and the archive shows every page with all changes; when they are told that the flush has ended, the archive is not modified and its file, opened at that moment, shows every page with all changes. close() tells them that it will begin, does the same as flush() if there are changes, and tells them that it has ended; after that, flush() fails and tells nobody.", "quantifier": "all archives, all histories of additions, edits, removals, redirects and flushes before it, all pages", "why_tests_cant": "A test with a processor looks at one history; what the archive shows at each of the moments depends on everything that was still waiting.", "anchors": ["pyzim/archive.py:Zim.flush", "pyzim/archive.py:Zim.close", "pyzim/processor.py:BaseProcessor.before_flush", "pyzim/processor.py:BaseProcessor.after_content_flush", "pyzim/processor.py:BaseProcessor.after_flush"]}
{"id": "C96", "title": "A push that must not replace anything removes nothing", "statement": "push(key, element, allow_replacement=False) never removes or changes what is cached for other keys and never reports that something left the cache. If there is room in the cache, the element is cached afterwards and get(key) gives it.", "quantifier": "every history of calls on each kind of cache, every size, all keys and elements", "why_tests_cant": "Whether a push replaces something depends on the whole history of accesses; a test looks at a few of them.", "anchors": ["pyzim/cache.py:BaseCache.push", "pyzim/cache.py:LastAccessCache.push", "pyzim/cache.py:TopAccessCache.push", "pyzim/cache.py:HybridCache.push"]}
{"id": "C97", "title": "Processors are told where each cluster was written", "statement": "When write_cluster() returns, the installed processors have been told once before and once after the write, with the number of the cluster, the offset it had before (None for a new one) and its new offset. A processor that keeps a table from these notices can find every cluster of the archive in it: get_cluster_at() with the offset in the table has the blobs of the cluster with that number, after any history. If the write fails, nobody is told that the cluster was written.", "quantifier": "all archives, all histories of writing, rewriting and removing clusters, all numbers of clusters", "why_tests_cant": "Where a cluster is written depends on all earlier writes and removals; a test looks at the notices of a few of them.", "anchors": ["pyzim/archive.py:Zim.write_cluster", "pyzim/archive.py:Zim.get_cluster_index_by_offset", "pyzim/processor.py:BaseProcessor.before_cluster_write", "pyzim/processor.py:BaseProcessor.after_cluster_write"]}
{"id": "C98", "title": "Processors that change the entries that are read do not disturb look-ups", "statement": "A processor may return another entry from after_entry_get(). Look-ups by url and by number, the main page, iteration and the resolution of redirects then give what the installed processors made of exactly the entry that would be found without them, and urls that do not exist are still not found, whatever the processors remember between the calls.", "quantifier": "all archives, all lists of installed processors with all their states, all urls, numbers and ranges", "why_tests_cant": "The processors are also called for every entry that is compared during a search; whether this disturbs the search depends on all entries of the archive and on everything the processor does.", "anchors": ["pyzim/archive.py:Zim.get_entry_at", "pyzim/archive.py:Zim._get_full_url_for_entry_at", "pyzim/archive.py:Zim.get_entry_by_full_url", "pyzim/processor.py:BaseProcessor.before_entry_get", "pyzim/processor.py:BaseProcessor.after_entry_get"]}
{"id": "C99", "title": "Processors are told of every redirect that is added", "statement": "on_add_redirect() is called exactly once for every redirect given to add_redirect() or add_full_url_redirect() that gets into the archive, no matter whether it was written at once or waited for its target until a flush; at that time the redirect is not yet in the archive, and its target is. Nothing is told of redirects that are refused or never resolved, and whatever was told is in the archive afterwards.", "quantifier": "all archives, all sets of redirects in all orders, with chains and cycles, all targets that exist, appear later or never", "why_tests_cant": "Whether, and in which round of a flush, a redirect is told depends on all the other redirects that wait and on the order in which they were given.", "anchors": ["pyzim/archive.py:Zim.add_full_url_redirect", "pyzim/operationbuffer.py:OperationBuffer._apply_redirects", "pyzim/processor.py:BaseProcessor.on_add_redirect"]}
{"id": "C100", "title": "Files are replaced only when this is asked for", "statement": "Zim.open() touches only the file at the given path. Mode 'r' changes nothing and never makes a file; mode 'x' raises FileExistsError for a file that is there and leaves it; modes 'r' and 'u' do not make a missing file; mode 'w', and mode 'x' for a missing file, give the same new archive. A translator with paths leaves its input as it is, does not touch the output if the input cannot be opened, and does not touch an existing output unless replacement is allowed; what can be opened from the output path afterwards is the copy.", "quantifier": "all sets of files, all paths and modes, all contents of the files, all archives that are translated", "why_tests_cant": "The promise is about files that are not part of the operation, and about every way in which opening or translating can fail.", "anchors": ["pyzim/archive.py:Zim.open", "pyzim/util/translator.py:PathReaderMixIn.open_in", "pyzim/util/translator.py:PathReaderMixIn.open_out", "pyzim/util/translator.py:ZimTranslator.__init__"]}
{"id": "C101", "title": "Processors that replace the clusters that are read, and cluster caches, do not disturb look-ups", "statement": "A processor may return another cluster from after_cluster_get(). In an archive that is open for reading, get_cluster_at() and get_cluster_by_index() then give what the installed processors, in the order of installation, make of the cluster that is in the file; each processor is called exactly once before and once after every look-up. What a processor made is never given to the processors again: neither the class and size of the cluster cache nor the look-ups before make a difference.", "quantifier": "all lists of processors with all their states, all cluster caches, all histories of look-ups, all locations and numbers", "why_tests_cant": "Whether a cluster comes from the cache depends on the whole history and on the replacement strategy; a replaced cluster that got into the cache would show only in some of them.", "anchors": ["pyzim/archive.py:Zim.get_cluster_at", "pyzim/archive.py:Zim.get_cluster_by_index", "pyzim/processor.py:BaseProcessor.before_cluster_get", "pyzim/processor.py:BaseProcessor.after_cluster_get"]}
{"id": "C102", "title": "The dictionary of a header contains the whole header", "statement": "Header.to_dict() has every field of the header under its name (magic_number, version_major, ..., pointer_checksum), so that two headers with the same dictionary are the same. The uuid is there as the 32 digits of its bytes and as the number they are; a main or layout page is reported to be there exactly if it is, with its number, and None otherwise.", "quantifier": "all headers", "why_tests_cant": "A field that is left out, or two fields that are swapped, show only for headers in which they differ; the digits of the uuid depend on all of its bytes.", "anchors": ["pyzim/header.py:Header.to_dict"]}
{"id": "C103", "title": "The mimetype of every entry can be asked for and is listed", "statement": "After any history of additions and edits, flushing and opening the file again, get_mimetype_of_entry() gives for the entry of an item the mimetype it was given last, and '<redirect>' for a redirect; iter_mimetypes() lists the mimetype of every item. get_mimetype_by_index() and iter_mimetypes() agree on the number of every mimetype and other numbers, negative ones too, raise IndexError; with as_unicode the same mimetypes are listed in the same order.", "quantifier": "all histories of an archive, all entries, all mimetypes and numbers", "why_tests_cant": "The number of a mimetype depends on the order in which mimetypes were used first, over all sessions; a shifted or reused number shows only for some histories.", "anchors": ["pyzim/archive.py:Zim.get_mimetype_of_entry", "pyzim/archive.py:Zim.get_mimetype_by_index", "pyzim/archive.py:Zim.iter_mimetypes", "pyzim/mimetypelist.py:MimeTypeList.iter_mimetypes"]}
{"id": "C104", "title": "A policy that was accepted can be used", "statement": "Policy() returns exactly for the arguments that its documentation allows (classes of the right kind, a known way to load the counter, no 'zim' among the keywords of a strategy, at least 3 bytes for mimetypes or None) and raises AssertionError otherwise. What is given is kept, and default keywords are used only together with the default class. An archive can be opened, in every mode, with any policy that was accepted if its keywords suit its classes: the archive never gives a class a keyword twice; keywords that do not suit are reported with TypeError when the archive is opened for writing.", "quantifier": "all arguments of a policy, also classes and keywords that are not of this library, all modes", "why_tests_cant": "The arguments can be combined in any way; a missing test shows only for one combination and only when an archive is opened for writing.", "anchors": ["pyzim/policy.py:Policy.__init__", "pyzim/archive.py:Zim.__init__", "pyzim/archive.py:Zim._init_caches"]}
