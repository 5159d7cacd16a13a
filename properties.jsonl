{"id": "C01", "title": "Metadata paths are always normalised and relative", "statement": "MetadataPath(*args), for any strings, is relative and its parts are exactly the '/'-separated components of the arguments that follow the last argument-initial '/', with empty and '.' components dropped; no part is empty, '.', or contains '/'.", "quantifier": "all lists of string arguments", "why_tests_cant": "infinitely many strings; pathlib root rules ('//', '///', later absolute argument wins) have many corner cases", "anchors": ["dataladmetadatamodel/metadatapath.py: MetadataPath.__new__"]}
{"id": "C02", "title": "Path text round-trip and join algebra", "statement": "Rebuilding a MetadataPath from its str()/as_posix() text or from '/'.join(parts) gives the same path; '/' on MetadataPaths is associative, has MetadataPath('') as identity, and is left-cancellative (p/a == p/b implies a == b), so a copied version list never merges two prefix paths.", "quantifier": "all metadata paths", "why_tests_cant": "unbounded set of paths", "anchors": ["dataladmetadatamodel/metadatapath.py: MetadataPath.__str__", "dataladmetadatamodel/versionlist.py: VersionList.deepcopy_impl"]}
{"id": "C03", "title": "A metadata path can never be made absolute or Windows-flavoured", "statement": "Whatever operands are used with '/' the result is a relative path, and backslashes given to the constructor are treated as separators (the code contains an explicit replace).", "quantifier": "all operands", "why_tests_cant": "infinitely many operands", "anchors": ["dataladmetadatamodel/metadatapath.py: MetadataPath.__new__"]}
{"id": "C04", "title": "File and directory names survive the git tree format", "statement": "For every name that a path component can have (non-empty, no '/', no NUL, no line feed, valid Unicode) the name read back from a stored tree equals the name that was added, whatever quotes, backslashes, tabs, control or non-ASCII characters it contains, and distinct names stay distinct.", "quantifier": "all names over all Unicode scalar values", "why_tests_cant": "three quoting layers (mapper escape, git mktree unquote, git quote + Python escape_decode) over an infinite alphabet", "anchors": ["dataladmetadatamodel/mapper/gitmapper/mtreenodemapper.py: escape_double_quotes, map_in_impl, map_out_impl", "dataladmetadatamodel/mapper/gitmapper/gitbackend/subprocess.py: git_save_tree_node, git_read_tree_node", "dataladmetadatamodel/mapper/gitmapper/utils.py: split_git_lstree_line"]}
{"id": "C05", "title": "A path name cannot forge tree entries", "statement": "Adding metadata under one name stores exactly one tree entry: no name can make the stored tree contain an entry the user did not add, or fail to be stored.", "quantifier": "all names accepted by add_metadata", "why_tests_cant": "needs all strings, including ones with line feeds", "anchors": ["dataladmetadatamodel/mapper/gitmapper/gitbackend/subprocess.py: git_save_tree_node", "dataladmetadatamodel/mtreenode.py: _add_children"]}
{"id": "C06", "title": "JSON documents survive serialisation", "statement": "json.loads(json.dumps(x)) equals x for every JSON value the model stores, for all strings over all Unicode scalar values.", "quantifier": "all JSON values of any depth", "why_tests_cant": "infinite domain, escaping of every code point, surrogate pairs, nested containers", "anchors": ["dataladmetadatamodel/metadata.py: to_json, init_from_json", "dataladmetadatamodel/mapper/gitmapper/gitbackend/subprocess.py: git_save_json, git_load_json"]}
{"id": "C07", "title": "The git text pipeline does not alter stored JSON", "statement": "Saving a JSON document as a git blob and loading it again yields the same document, although loading goes through bytes.decode, str.splitlines and '\\n'.join.", "quantifier": "all JSON values", "why_tests_cant": "splitlines has eleven separators; needs that none ever occurs in any dumped document", "anchors": ["dataladmetadatamodel/mapper/gitmapper/gitbackend/subprocess.py: git_load_str, git_text_result, git_save_str"]}
{"id": "C08", "title": "Text objects read back as written", "statement": "A Text object that is written out and read in again has the same content; what load returns is exactly the content with every line separator normalised to a line feed and one trailing separator dropped.", "quantifier": "all text contents", "why_tests_cant": "all strings over eleven line separators", "anchors": ["dataladmetadatamodel/mapper/gitmapper/textmapper.py: map_in_impl, map_out_impl", "dataladmetadatamodel/mapper/gitmapper/gitbackend/subprocess.py: git_text_result"]}
{"id": "C09", "title": "References survive serialisation and None-references are recognised", "statement": "Reference.from_json_str(r.to_json_str()) == r for all class names and locations, old-style extra keys are ignored, and is_none_reference is true exactly for references created by get_none_reference (location '*None*'); no git object id is ever mistaken for it.", "quantifier": "all references", "why_tests_cant": "infinite domain", "anchors": ["dataladmetadatamodel/mapper/reference.py: Reference"]}
{"id": "C10", "title": "Documents of another format version are rejected, never misread", "statement": "Every deserialiser (Reference, ExtractorConfiguration, MetadataInstance, MetadataInstanceSet, Metadata, metadata sources) raises on a document whose '@'.version differs from '2.0' or whose '@'.type is wrong; no object is produced from it.", "quantifier": "all JSON documents", "why_tests_cant": "all documents with a wrong header", "anchors": ["dataladmetadatamodel/__init__.py: check_serialized_version", "dataladmetadatamodel/metadata.py: from_json_obj", "dataladmetadatamodel/mapper/reference.py: from_json_obj"]}
{"id": "C11", "title": "Metadata survives serialisation", "statement": "Metadata.from_json(m.to_json()) has the same extractors in the same order, the same configurations in the same order and the same instance for each, for every metadata object that the API can build.", "quantifier": "all sequences of add_extractor_run calls", "why_tests_cant": "unbounded histories and contents", "anchors": ["dataladmetadatamodel/metadata.py: Metadata.to_json, init_from_json, from_json, MetadataInstanceSet, MetadataInstance, ExtractorConfiguration"]}
{"id": "C12", "title": "Latest extractor run per configuration wins", "statement": "After any sequence of add_extractor_run calls, the runs of an extractor map each distinct configuration to the instance of the last call with that configuration; configurations are listed once each in first-use order; other extractors are unaffected.", "quantifier": "all call sequences", "why_tests_cant": "all histories; configuration equality is Python dict equality", "anchors": ["dataladmetadatamodel/metadata.py: MetadataInstanceSet.add_metadata_instance, get_instance_for_configuration, Metadata.add_extractor_run"]}
{"id": "C13", "title": "Comparing metadata never fails", "statement": "m1 == m2 returns a boolean for any two metadata objects and is true for a metadata object and its reloaded copy.", "quantifier": "all pairs of metadata objects", "why_tests_cant": "all contents", "anchors": ["dataladmetadatamodel/metadata.py: MetadataInstanceSet.__eq__, Metadata.__eq__"]}
{"id": "C14", "title": "Metadata sources survive serialisation", "statement": "MetadataSource.from_json_str(s.to_json_str()) == s for local-git and immediate sources; documents with missing keys or unknown source type give None, never an object.", "quantifier": "all sources and all JSON documents", "why_tests_cant": "infinite domain", "anchors": ["dataladmetadatamodel/metadatasource.py: MetadataSource.from_json_obj, LocalGitMetadataSource, ImmediateMetadataSource"]}
{"id": "C15", "title": "Adding to a tree adds exactly one object", "statement": "If add_child_at(child, path) (FileTree.add_metadata, DatasetTree.add_dataset/add_subtree) returns, then get_object_at_path(path) is that child and lookups at every path that neither extends nor is an extension-prefix of it are unchanged; if it raises, no lookup anywhere changes.", "quantifier": "all trees, all paths, all children", "why_tests_cant": "unbounded trees and interleavings of loaded/unloaded nodes", "anchors": ["dataladmetadatamodel/mtreenode.py: add_child_at, _add_children, get_object_at_path", "dataladmetadatamodel/filetree.py: add_metadata, get_metadata"]}
{"id": "C16", "title": "Add conflicts are detected exactly", "statement": "add_child_at raises ValueError exactly when the path is already occupied or some proper prefix of it is a leaf object; otherwise it succeeds.", "quantifier": "all trees and paths", "why_tests_cant": "unbounded trees", "anchors": ["dataladmetadatamodel/mtreenode.py: add_child_at"]}
{"id": "C17", "title": "Listing a tree enumerates exactly its leaves", "statement": "get_paths_recursive yields each leaf object exactly once under its full path and nothing else (plus each tree node once with show_intermediate), so that yielded (path, object) pairs are exactly those with get_object_at_path(path) = object.", "quantifier": "all trees", "why_tests_cant": "unbounded trees", "anchors": ["dataladmetadatamodel/mtreenode.py: get_paths_recursive", "dataladmetadatamodel/datasettree.py: dataset_paths"]}
{"id": "C18", "title": "Removing removes exactly one subtree", "statement": "After remove_child_at(path) / delete_subtree(path) lookups at path and its extensions give nothing and all other lookups are unchanged; the emptied tree can still be written out.", "quantifier": "all trees and paths", "why_tests_cant": "unbounded trees", "anchors": ["dataladmetadatamodel/mtreenode.py: remove_child_at, remove_child", "dataladmetadatamodel/datasettree.py: delete_subtree"]}
{"id": "C19", "title": "A dataset tree is a map from dataset paths to root records", "statement": "After any sequence of add_dataset calls, membership, get_metadata_root_record and dataset_paths agree with the finite map of the successful calls; datasets nested below other datasets do not interfere.", "quantifier": "all call sequences", "why_tests_cant": "unbounded histories; records and subdatasets share one tree", "anchors": ["dataladmetadatamodel/datasettree.py: DatasetTree"]}
{"id": "C20", "title": "A version list is a map from (version, prefix path) to elements", "statement": "After any sequence of set_versioned_element calls, versions_and_prefix_paths, len, get_versioned_element and versioned_elements agree with the finite map of the last value set per (version, prefix path).", "quantifier": "all call sequences", "why_tests_cant": "unbounded histories", "anchors": ["dataladmetadatamodel/versionlist.py: VersionList"]}
{"id": "C21", "title": "A UUID set is a map from dataset ids to version lists, loaded or not", "statement": "uuids/get_version_list/set_version_list behave as a finite map whether or not the set is currently loaded.", "quantifier": "all call sequences and loading states", "why_tests_cant": "histories mixing purge and set", "anchors": ["dataladmetadatamodel/uuidset.py: UUIDSet.set_version_list, get_version_list, uuids"]}
{"id": "C22", "title": "Modification tracking covers the whole subtree", "statement": "is_saved_on(r) is true only if the object and every loaded object below it carries the saved-on-r mark; hence after any modifying call on any loaded object below x, x.is_saved_on(r) is false for every realm r until something below or at x is written again.", "quantifier": "all object graphs and all modifications", "why_tests_cant": "unbounded object graphs", "anchors": ["dataladmetadatamodel/modifiableobject.py: is_saved_on, touch", "dataladmetadatamodel/mappableobject.py: modifiable_sub_objects"]}
{"id": "C23", "title": "Purging never drops modifications that were never written", "statement": "If purge succeeds, no object below was both loaded and unsaved (never written since its last modification); ValueError is raised only if there is such an object. No git command is run, and also a failing purge only unloads objects with nothing unsaved below them. After a purge that succeeds nothing of what was loaded below the object is loaded.", "quantifier": "all object graphs", "why_tests_cant": "unbounded object graphs", "anchors": ["dataladmetadatamodel/mappableobject.py: purge", "dataladmetadatamodel/mtreenode.py: purge_impl", "dataladmetadatamodel/versionlist.py: purge_impl", "dataladmetadatamodel/uuidset.py: purge_impl", "dataladmetadatamodel/metadatarootrecord.py: purge_impl"]}
{"id": "C24", "title": "Written objects can be read back by reference", "statement": "If write_out(realm) of an unshared object graph (Text-free: metadata, file tree, dataset tree, root record, version list, uuid set) returns reference R, then a new object created with (realm, R) and loaded on demand shows the same content: same names, ids, versions, time stamps, prefix paths, configurations and metadata at every level (an empty file tree shows up as absent; tree listings come back in git order).", "quantifier": "all object graphs, all loading states of their parts", "why_tests_cant": "unbounded graphs, every combination of loaded and unloaded parts", "anchors": ["dataladmetadatamodel/mappableobject.py: write_out, read_in", "dataladmetadatamodel/mapper/gitmapper/*mapper.py: map_in_impl, map_out_impl"]}
{"id": "C25", "title": "Loading and unloading are transparent", "statement": "read_in, ensure_mapped, and purge of a saved object do not change the content observable through the API (up to the normalisation in C24).", "quantifier": "all objects and loading states", "why_tests_cant": "unbounded graphs", "anchors": ["dataladmetadatamodel/mappableobject.py: read_in, purge, ensure_mapped"]}
{"id": "C26", "title": "Writing an unmodified object is a no-op", "statement": "If is_saved_on(realm) holds then write_out(realm) returns the existing reference without any git write; in particular a second write_out directly after a successful one is a no-op.", "quantifier": "all objects", "why_tests_cant": "all graphs and histories", "anchors": ["dataladmetadatamodel/mappableobject.py: write_out"]}
{"id": "C27", "title": "write_out after modification persists the current content, for every history", "statement": "Whatever sequence of get/modify/unget/write_out/purge calls precedes it, when write_out on a container returns, the returned reference describes the container's current content.", "quantifier": "all call histories", "why_tests_cant": "needs all histories, including objects written individually or reachable from two containers", "anchors": ["dataladmetadatamodel/filetree.py: unget_metadata", "dataladmetadatamodel/versionlist.py: unget_versioned_element", "dataladmetadatamodel/uuidset.py: unget_version_list", "dataladmetadatamodel/modifiableobject.py: is_saved_on", "dataladmetadatamodel/common.py: get_metadata_root_record_from_top_nodes"]}
{"id": "C28", "title": "A file-tree session behaves like a persistent map", "statement": "For any sequence of add_metadata, get_metadata, add_extractor_run on existing entries, listing, write_out and purge on one FileTree with one local repository, results are those of a plain map from paths to metadata, and each write_out returns a reference from which the map at that moment can be reloaded.", "quantifier": "all call sequences", "why_tests_cant": "unbounded histories", "anchors": ["dataladmetadatamodel/filetree.py: FileTree", "dataladmetadatamodel/mtreeproxy.py: MTreeProxy"]}
{"id": "C29", "title": "Writing only adds to the object store", "statement": "write_out never removes or changes an existing git object, and changes no git reference other than dataset-tree-version-list (for a TreeVersionList) or dataset-uuid-set (for a UUIDSet) of the destination realm; other realms are untouched. This holds also if it fails part way.", "quantifier": "all objects, all failure points", "why_tests_cant": "all crash points", "anchors": ["dataladmetadatamodel/mappableobject.py: write_out", "dataladmetadatamodel/mapper/gitmapper/uuidsetmapper.py", "dataladmetadatamodel/mapper/gitmapper/versionlistmapper.py"]}
{"id": "C30", "title": "Published references never dangle", "statement": "At every instant during write_out of a tree version list or uuid set - including a crash between any two git commands - the objects that refs/datalad/dataset-tree-version-list and refs/datalad/dataset-uuid-set point to, and everything the loader follows from them, are present in the repository.", "quantifier": "every prefix of the git command sequence of every write_out", "why_tests_cant": "needs every crash point of every run", "anchors": ["dataladmetadatamodel/mapper/gitmapper/versionlistmapper.py: TreeVersionListGitMapper.map_out_impl", "dataladmetadatamodel/mapper/gitmapper/uuidsetmapper.py: map_out_impl", "dataladmetadatamodel/mtreeproxy.py: write_out"]}
{"id": "C31", "title": "Remote realms are never written", "statement": "write_out of a loaded object to a remote realm (git@, git:, http:, https:, ssh:) raises RuntimeError and performs no git write; reads from remote realms go through a per-remote local cache.", "quantifier": "all objects and realms", "why_tests_cant": "all realm strings", "anchors": ["dataladmetadatamodel/mappableobject.py: write_out", "dataladmetadatamodel/mapper/reference.py: is_remote", "dataladmetadatamodel/mapper/gitmapper/gitbackend/subprocess.py: adapt_for_remote", "dataladmetadatamodel/mapper/gitmapper/localcache.py"]}
{"id": "C32", "title": "Deep copies are complete and leave the source alone", "statement": "deepcopy(new_destination) returns an object whose content, read from the new realm alone, equals the source content (prefix paths extended by path_prefix), and neither content nor loading state nor stored form of the source changes.", "quantifier": "all object graphs and loading states", "why_tests_cant": "unbounded graphs", "anchors": ["dataladmetadatamodel/mappableobject.py: deepcopy", "dataladmetadatamodel/mtreenode.py: deepcopy_impl", "dataladmetadatamodel/metadata.py: deepcopy_impl", "dataladmetadatamodel/metadatarootrecord.py: deepcopy_impl", "dataladmetadatamodel/versionlist.py: deepcopy_impl", "dataladmetadatamodel/uuidset.py: deepcopy_impl", "dataladmetadatamodel/text.py: deepcopy_impl"]}
{"id": "C33", "title": "Batched blob writing is equivalent to immediate writing", "statement": "For every sequence of cache_blob calls: each returns the id git would give the blob; at most maxsize blobs are pending; after flush all of them are in the repository and none is pending.", "quantifier": "all blob sequences and all cache sizes >= 1 (the bound on pending blobs fails for size 0)", "why_tests_cant": "unbounded sequences crossing the flush threshold", "anchors": ["dataladmetadatamodel/mapper/gitmapper/gitblobcache.py: GitBlobCache", "dataladmetadatamodel/mapper/gitmapper/metadatamapper.py: map_out_impl_cached"]}
{"id": "C34", "title": "A failed write leaves the library usable", "statement": "If FileTree.write_out raises, a later write_out of a correct tree to the same realm in the same process works and metadata reported as written is in the repository.", "quantifier": "all failure points", "why_tests_cant": "needs every failure point", "anchors": ["dataladmetadatamodel/mtreeproxy.py: write_out", "dataladmetadatamodel/mapper/gitmapper/metadatamapper.py: cache_realm, flush_realm"]}
{"id": "C35", "title": "Every valid in-memory object can be written", "statement": "write_out to an existing local repository succeeds for every object the API lets the user build, and reloading it allows further editing and writing.", "quantifier": "all objects", "why_tests_cant": "all reachable object states, e.g. emptied trees, empty sets, empty dataset trees", "anchors": ["dataladmetadatamodel/mapper/gitmapper/mtreenodemapper.py: map_out_impl", "dataladmetadatamodel/mapper/gitmapper/uuidsetmapper.py: map_out_impl", "dataladmetadatamodel/mappableobject.py: read_in"]}
{"id": "C36", "title": "Tree update merges exactly the given paths", "statement": "add_paths(repo, infos, root) either raises ValueError and changes no reference, or returns the id of a tree whose content at every path is: the given object for each given path, and the old entry for every path not affected; sub-trees are read and rewritten only along given paths.", "quantifier": "all trees and all sets of paths", "why_tests_cant": "unbounded trees", "anchors": ["dataladmetadatamodel/mapper/gitmapper/treeupdater.py: add_paths, _get_dir, _write_dir, _check_entries_validity"]}
{"id": "C37", "title": "Flushed object references are never lost", "statement": "After flush_object_references(realm) every cached (type, id) pair is an entry of refs/datalad/object-references-2.0 under id[0:3]/id[3:6]/id[6:9]/id[9:] and every entry that was there before still is, for any number of flushes.", "quantifier": "all reference sets and histories", "why_tests_cant": "unbounded histories", "anchors": ["dataladmetadatamodel/mapper/gitmapper/objectreference.py: flush_object_references, add_object_reference", "dataladmetadatamodel/mapper/gitmapper/treeupdater.py: add_paths"]}
{"id": "C38", "title": "Legacy reference stores are converted without a gap", "statement": "At every instant of a flush on a realm with legacy stores, each legacy entry is reachable from the legacy reference or from the new one; legacy references are deleted only after the new reference holds all their entries.", "quantifier": "all crash points", "why_tests_cant": "every crash point", "anchors": ["dataladmetadatamodel/mapper/gitmapper/objectreference.py: add_legacy_store_entries, remove_legacy_store_reference"]}
{"id": "C39", "title": "Concurrent flushes do not lose references", "statement": "For any number of processes flushing into one realm and any interleaving of their steps, when all have finished the reference tree contains every pair any of them flushed.", "quantifier": "all interleavings of any number of processes", "why_tests_cant": "schedule space is unbounded", "anchors": ["dataladmetadatamodel/mapper/gitmapper/objectreference.py: flush_object_references", "dataladmetadatamodel/mapper/gitmapper/utils.py: locked_backend, lock_backend, unlock_backend"]}
{"id": "C40", "title": "The backend lock is re-entrant and always released", "statement": "Within a process, for any nesting of locked_backend blocks on any realms, the inter-process lock of a realm is held exactly while at least one block on that realm is open, also if blocks exit by exception.", "quantifier": "all nesting patterns", "why_tests_cant": "unbounded nesting", "anchors": ["dataladmetadatamodel/mapper/gitmapper/utils.py: lock_backend, unlock_backend, locked_backend"]}
{"id": "C41", "title": "Stored metadata is protected from git gc", "statement": "After write_out of a tree version list and uuid set followed by flush_object_references(realm), every object the loader needs is reachable from some git reference of the realm.", "quantifier": "all object graphs", "why_tests_cant": "unbounded graphs", "anchors": ["dataladmetadatamodel/mtreeproxy.py: write_out", "dataladmetadatamodel/mapper/gitmapper/metadatamapper.py: map_out_impl_immediate", "dataladmetadatamodel/mapper/gitmapper/metadatarootrecordmapper.py: map_out_impl", "dataladmetadatamodel/mapper/gitmapper/objectreference.py"]}
{"id": "C42", "title": "Object references are recorded in the realm of the object", "statement": "If objects are written to several realms and each realm is then flushed, each realm's reference tree names every object that was written to it.", "quantifier": "all histories over several realms", "why_tests_cant": "histories over realms", "anchors": ["dataladmetadatamodel/mapper/gitmapper/objectreference.py: cached_object_references, flush_object_references"]}
{"id": "C43", "title": "Auto-creation is complete and idempotent", "statement": "get_metadata_root_record_from_top_nodes(..., auto_create=True) returns a record, and the same call repeated (with or without auto_create) returns the very same object and changes nothing; entries for other (version, prefix path, dataset id) are unchanged.", "quantifier": "all top-level states whose objects are in memory or stored in the repository with complete contents, all arguments with a tree path that has no part named like records (for those see C52)", "why_tests_cant": "unbounded states", "anchors": ["dataladmetadatamodel/common.py: get_metadata_root_record_from_top_nodes"]}
{"id": "C44", "title": "Look-up without auto-creation is read-only", "statement": "get_metadata_root_record_from_top_nodes(..., auto_create=False) never marks any object as modified and never adds entries; it returns None if the record does not exist.", "quantifier": "all top-level states and arguments", "why_tests_cant": "unbounded states", "anchors": ["dataladmetadatamodel/common.py: get_metadata_root_record_from_top_nodes"]}
{"id": "C45", "title": "A partially initialised realm does not lose data", "statement": "If only one of the two top-level references exists (e.g. a crash between the two write_outs), get_top_nodes_and_metadata_root_record with auto_create followed by writing both objects keeps the data of the existing one.", "quantifier": "all crash points of the two-object write", "why_tests_cant": "crash between two commands", "anchors": ["dataladmetadatamodel/common.py: get_top_level_metadata_objects, get_top_nodes_and_metadata_root_record"]}
{"id": "C46", "title": "FileTree.add_extractor_run creates missing entries", "statement": "add_extractor_run(path, ...) on a path without metadata creates a metadata object there and records the run.", "quantifier": "all trees and paths", "why_tests_cant": "all trees", "anchors": ["dataladmetadatamodel/filetree.py: add_extractor_run"]}
{"id": "C47", "title": "Failed writes and purge do not make saved objects unreadable", "statement": "An object that is saved on some realm can be purged and read back, whatever failed write_out calls to other realms happened before, and is_saved_on answers for a realm only if the realm holds the current content.", "quantifier": "all histories over several realms", "why_tests_cant": "histories with failures", "anchors": ["dataladmetadatamodel/mappableobject.py: write_out, purge, read_in"]}
{"id": "C48", "title": "Blob ids are computed as git computes them", "statement": "hash_blob(s) equals the id git assigns to the blob that is finally written for s (same header, same byte length, same bytes), so that references handed out before the flush are valid after it.", "quantifier": "all blob contents", "why_tests_cant": "all strings incl. non-ASCII where byte and character length differ", "anchors": ["dataladmetadatamodel/mapper/gitmapper/gitblobcache.py: hash_blob"]}
{"id": "C49", "title": "A written tree version list stays usable", "statement": "After tree_version_list.write_out(realm) the list can be purged and used again (its entries are loaded on demand), and deepcopy of a tree version list returns a usable list.", "quantifier": "all tree version lists", "why_tests_cant": "all contents", "anchors": ["dataladmetadatamodel/mapper/gitmapper/versionlistmapper.py: TreeVersionListGitMapper.map_out_impl", "dataladmetadatamodel/mapper/mapper.py: map_in", "dataladmetadatamodel/versionlist.py: TreeVersionList.deepcopy_impl"]}
{"id": "C50", "title": "Size and equality do not depend on the loading state", "statement": "len(version_list) and metadata == other give the same answer whether the object is loaded or purged.", "quantifier": "all objects and loading states", "why_tests_cant": "all loading states", "anchors": ["dataladmetadatamodel/versionlist.py: VersionList.__len__", "dataladmetadatamodel/metadata.py: Metadata.__eq__"]}
{"id": "C51", "title": "Saved records can be purged and copied", "statement": "purge() of a root record that was just written succeeds, and deepcopy of a root record succeeds, whatever parts the record has.", "quantifier": "all root records", "why_tests_cant": "unbounded states; the test suite always sets dataset level metadata", "anchors": ["dataladmetadatamodel/metadatarootrecord.py: purge_impl, deepcopy_impl"]}
{"id": "C52", "title": "Datasets at different tree paths do not get into each other's way", "statement": "After any sequence of get_metadata_root_record_from_top_nodes(..., auto_create=True) calls a call for any further dataset tree path returns a record, and all earlier calls, repeated, return their records.", "quantifier": "all sequences of calls and all tree paths", "why_tests_cant": "unbounded sequences; the reserved name .datalad_metadata_root_record is never used as directory name in tests", "anchors": ["dataladmetadatamodel/common.py: get_metadata_root_record_from_top_nodes", "dataladmetadatamodel/datasettree.py: __contains__, add_dataset, get_metadata_root_record"]}
{"id": "C53", "title": "The record that is returned belongs to the dataset", "statement": "get_metadata_root_record_from_top_nodes returns a record with the given dataset id and version, and registers only such a record in the version list of the dataset.", "quantifier": "all top-level states and arguments", "why_tests_cant": "unbounded states; tests use one dataset id for each path", "anchors": ["dataladmetadatamodel/common.py: get_metadata_root_record_from_top_nodes"]}
{"id": "C54", "title": "The two ways to a record agree", "statement": "The record that the UUID set and the version list of a dataset lead to and the record that the tree version list and the dataset tree lead to have the same content, after any number of processes that open the top-level objects, use the record returned by get_top_nodes_and_metadata_root_record, and write both.", "quantifier": "all sequences of processes", "why_tests_cant": "needs several processes and a comparison of both ways", "anchors": ["dataladmetadatamodel/common.py: get_top_nodes_and_metadata_root_record", "dataladmetadatamodel/uuidset.py: get_version_list", "dataladmetadatamodel/versionlist.py: get_versioned_element"]}
{"id": "C55", "title": "A process publishes exactly the record it asked for", "statement": "A process calls get_top_nodes_and_metadata_root_record(..., auto_create=True) for a dataset (empty dataset_tree_path) and then write_out() of the tree version list and of the UUID set it got. The call returns a record and leaves the repository as it is; if both writes succeed, the repository publishes what it published before, and in addition only what was missing of: a dataset tree for the version and path, a root record in it, a version list for the dataset, the record in the version list.", "quantifier": "all local repositories with both or none of the two references, all dataset ids, versions and paths, all process states that have not yet used the repository", "why_tests_cant": "all stored contents; the tests look at single entries", "anchors": ["dataladmetadatamodel/common.py: get_top_nodes_and_metadata_root_record", "dataladmetadatamodel/common.py: get_top_level_metadata_objects", "dataladmetadatamodel/mappableobject.py: write_out", "dataladmetadatamodel/mapper/gitmapper/treeversionlistmapper.py: map_out_impl", "dataladmetadatamodel/mapper/gitmapper/uuidsetmapper.py: map_out_impl"]}
{"id": "C56", "title": "Records stay published and are found by later processes", "statement": "After any number of processes that ask for records with auto_create=True and write both top nodes, one after the other, everything that was published is still published, and every process that starts later gets the records from get_top_nodes_and_metadata_root_record, with and without auto_create, whatever happens to processes in between.", "quantifier": "all sequences of processes and all repositories", "why_tests_cant": "sequences of processes of any length", "anchors": ["dataladmetadatamodel/common.py: get_top_nodes_and_metadata_root_record", "dataladmetadatamodel/common.py: get_top_level_metadata_objects", "dataladmetadatamodel/mappableobject.py: write_out"]}
{"id": "C57", "title": "Elements that are let go are kept", "statement": "unget_versioned_element, unget_metadata and unget_version_list write the element, if it was changed, and remove it from memory: afterwards the element is not loaded, the same content is seen in it and in the object it belongs to, and no other object changes. This works for every element of the object.", "quantifier": "all version lists, UUID sets and trees, all loading and modification states", "why_tests_cant": "all object graphs and states", "anchors": ["dataladmetadatamodel/versionlist.py: unget_versioned_element", "dataladmetadatamodel/filetree.py: unget_metadata", "dataladmetadatamodel/uuidset.py: unget_version_list", "dataladmetadatamodel/mappableobject.py: write_out, purge"]}
{"id": "C58", "title": "Getters return what the calls before amount to", "statement": "Whatever calls were made before, and whatever is loaded, the getters of an object and of its parts return exactly what these calls amount to: get_object_at_path, get_metadata and get_metadata_root_record the object at the path, None where there is none, AssertionError for an object of another class; get_file_tree and get_dataset_level_metadata the part of the record; versions_and_prefix_paths, versioned_elements, get_versioned_elements and get_versioned_element the records of a version list; uuids and get_version_list the lists of a UUID set; KeyError or AttributeError exactly if there is no such part.", "quantifier": "all call histories, all objects and parts, all loading states", "why_tests_cant": "all histories and loading states", "anchors": ["dataladmetadatamodel/mtreenode.py: get_object_at_path", "dataladmetadatamodel/filetree.py: get_metadata", "dataladmetadatamodel/datasettree.py: get_metadata_root_record, __contains__", "dataladmetadatamodel/metadatarootrecord.py: get_file_tree, dataset_level_metadata", "dataladmetadatamodel/versionlist.py: versions_and_prefix_paths, get_versioned_element, versioned_elements", "dataladmetadatamodel/uuidset.py: uuids, get_version_list"]}
