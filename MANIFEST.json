{
 "claims": [
  {
   "property": "C01",
   "status": "proved",
   "theorems": [
    "C01_paths_normalised"
   ],
   "note": ""
  },
  {
   "property": "C02",
   "status": "proved",
   "theorems": [
    "C02_text_roundtrip",
    "C02_join_algebra",
    "C02_text_injective",
    "C02_length"
   ],
   "note": ""
  },
  {
   "property": "C03",
   "status": "partial",
   "theorems": [
    "C03_relative_refuted",
    "C03_backslash_refuted",
    "C03_relative_partial",
    "C03_absolute_iff"
   ],
   "note": "False of the code: \"/\" with a string that starts with a slash gives an absolute path, and the result of arg.replace is discarded. The part that holds is proved."
  },
  {
   "property": "C04",
   "status": "proved",
   "theorems": [
    "C04_names_survive",
    "C04_names_distinct"
   ],
   "note": ""
  },
  {
   "property": "C05",
   "status": "partial",
   "theorems": [
    "C05_one_entry_refuted",
    "C05_one_entry_partial"
   ],
   "note": "False of the code: a name with a line feed produces several mktree lines and can forge entries. Proved for every name without line feed and NUL."
  },
  {
   "property": "C06",
   "status": "proved",
   "theorems": [
    "C06_json_roundtrip",
    "C06_json_text_single_line"
   ],
   "note": ""
  },
  {
   "property": "C07",
   "status": "proved",
   "theorems": [
    "C07_json_through_git"
   ],
   "note": ""
  },
  {
   "property": "C08",
   "status": "partial",
   "theorems": [
    "C08_text_refuted",
    "C08_text_partial"
   ],
   "note": "False of the code: git_load_str joins splitlines(), so final line feeds and other line separators are lost. The exact result and the exact set of texts that survive are proved."
  },
  {
   "property": "C09",
   "status": "proved",
   "theorems": [
    "C09_reference_roundtrip",
    "C09_extra_keys_ignored",
    "C09_none_reference_exact"
   ],
   "note": ""
  },
  {
   "property": "C10",
   "status": "proved",
   "theorems": [
    "C10_only_tagged_accepted",
    "C10_version_check_exact"
   ],
   "note": ""
  },
  {
   "property": "C11",
   "status": "proved",
   "theorems": [
    "C11_metadata_roundtrip"
   ],
   "note": ""
  },
  {
   "property": "C12",
   "status": "proved",
   "theorems": [
    "C12_latest_run_wins",
    "C12_initial_set"
   ],
   "note": "Configurations containing NaN are excluded (not equal to themselves in Python)."
  },
  {
   "property": "C13",
   "status": "partial",
   "theorems": [
    "C13_comparison_refuted",
    "C13_comparison_partial",
    "C13_reload_comparison_exact"
   ],
   "note": "False of the code: sorted() on two configurations raises TypeError. The exact outcome is proved."
  },
  {
   "property": "C14",
   "status": "proved",
   "theorems": [
    "C14_local_git_roundtrip",
    "C14_immediate_roundtrip",
    "C14_incomplete_gives_none"
   ],
   "note": ""
  },
  {
   "property": "C15",
   "status": "proved",
   "theorems": [
    "C15_added",
    "C15_failed"
   ],
   "note": "For trees of which no loaded node is part of two others (as the API builds them); any part of the tree may be unloaded."
  },
  {
   "property": "C16",
   "status": "proved",
   "theorems": [
    "C16_conflicts"
   ],
   "note": "For non-empty paths (an empty path is an AssertionError); any part of the tree may be unloaded."
  },
  {
   "property": "C17",
   "status": "partial",
   "theorems": [
    "C17_listing_partial",
    "C17_contents",
    "C17_history_partial",
    "C17_unloaded_refuted",
    "C17_lost_refuted"
   ],
   "note": "Loaded trees: exactly the pairs that get_object_at_path finds, nothing changed. Any tree of one repository without empty directories: every path with content is listed once, with an object that shows that content, and no content changes. As stated the property is false for unloaded trees: the listing unloads them at its end, the listed objects are then not those of the tree and runs added to them are lost. C17_history_partial: the same listings for all trees of all histories as in C27."
  },
  {
   "property": "C18",
   "status": "partial",
   "theorems": [
    "C18_removed",
    "C18_failed",
    "C18_emptied_write_refuted",
    "C27_remove_at"
   ],
   "note": "The lookups are as stated. False of the code: a tree with an emptied directory cannot be written. In histories as in C27: C27_remove_at."
  },
  {
   "property": "C19",
   "status": "partial",
   "theorems": [
    "C19_map_partial",
    "C17_history_partial",
    "C19_reserved_component_refuted"
   ],
   "note": "False of the code for dataset paths with the component .datalad_metadata_root_record; proved for all others: for new trees (C19_map_partial), and that dataset_paths lists the records of any dataset tree of a history with metadata in all records (C17_history_partial)."
  },
  {
   "property": "C20",
   "status": "proved",
   "theorems": [
    "C20_map",
    "C20_elements"
   ],
   "note": "For a loaded version list (the first call loads it)."
  },
  {
   "property": "C21",
   "status": "partial",
   "theorems": [
    "C21_set_on_unloaded_refuted",
    "C21_map_partial"
   ],
   "note": "False of the code: set_version_list does not load the set first and marks it as modified, so it cannot be loaded any more. C21_map_partial: a loaded set is the finite map of the last list set for each identifier."
  },
  {
   "property": "C22",
   "status": "proved",
   "theorems": [
    "C22_marks",
    "C22_marks_iff",
    "C22_modified",
    "C22_altered",
    "C22_kept",
    "C22_until_written"
   ],
   "note": "Also for objects that the call loads first, except for a UUID set that is not loaded: set_version_list does not load it, see C21."
  },
  {
   "property": "C23",
   "status": "proved",
   "theorems": [
    "C23_purge",
    "C23_unloads"
   ],
   "note": ""
  },
  {
   "property": "C24",
   "status": "proved",
   "theorems": [
    "C24_read_back",
    "C24_write_keeps_content",
    "C24_tree_version_list"
   ],
   "note": "For graphs without shared parts, with names that git can store (no line feed), root records with identifier and version; the destination is a local repository for which no blob cache is registered. A file tree without entries in a record counts as absent. For tree version lists the class name in the reference has to be corrected (C49)."
  },
  {
   "property": "C25",
   "status": "proved",
   "theorems": [
    "C25_transparent"
   ],
   "note": "For graphs written to one local realm; tree version lists that were written are excluded (C49)."
  },
  {
   "property": "C26",
   "status": "proved",
   "theorems": [
    "C26_saved_no_write",
    "C26_second_write",
    "C26_second_write_tree"
   ],
   "note": "For a destination that is not the empty string. A FileTree runs one git command without input on the second write; the repository does not change."
  },
  {
   "property": "C27",
   "status": "partial",
   "theorems": [
    "C27_lost_update_unget_refuted",
    "C27_lost_update_shared_refuted",
    "C27_history_partial",
    "C27_remove_at",
    "C27_add_run_at"
   ],
   "note": "False of the code: an entry that was changed and written on its own (unget_metadata), or through a second container, no longer counts as modified, and the container is not written. Without unget calls and without sharing it holds for every history of calls, unloads, writes and restarts with one repository; missing there: several repositories, changes of UUID sets that are not loaded, continuing a process after a failed write. C27_remove_at, C27_add_run_at: remove_child_at, delete_subtree and FileTree.add_extractor_run amount to calls of histories."
  },
  {
   "property": "C28",
   "status": "proved",
   "theorems": [
    "C28_session",
    "C28_reopened"
   ],
   "note": "Up to the first write that fails. Paths are storable names shorter than the recursion limit, arguments are JSON values. A reopened tree is not empty."
  },
  {
   "property": "C29",
   "status": "proved",
   "theorems": [
    "C29_only_adds"
   ],
   "note": "Every state between two git commands is covered. TreeVersionList and UUIDSet objects are assumed not to be part of other objects; the destination is not the empty string."
  },
  {
   "property": "C30",
   "status": "proved",
   "theorems": [
    "C30_published_never_dangles",
    "C30_other_objects"
   ],
   "note": "Every state between two git commands is covered. For object graphs as in C24 (tree version lists and UUID sets that are part of nothing else); other objects in any state."
  },
  {
   "property": "C31",
   "status": "proved",
   "theorems": [
    "C31_remote_not_written",
    "C31_remote_read",
    "C31_remote_realms",
    "C31_local_realms"
   ],
   "note": ""
  },
  {
   "property": "C32",
   "status": "partial",
   "theorems": [
    "C32_copy",
    "C32_same",
    "C32_source",
    "C49_unusable_copy_refuted",
    "C24_tree_version_list",
    "C32_history"
   ],
   "note": "For all graphs as in C24, in any loading state, up to the copy that fails; the new realm is a local repository for which no blob cache is registered. False of the code for tree version lists, whose copy cannot be used (C49). Text objects are not covered: the copy of a Text has no content (text.py 39-46), and is written from the standard input of the process. C32_history: a copy of any part of an object of a history can be used in histories of the other repository like any other object."
  },
  {
   "property": "C33",
   "status": "proved",
   "theorems": [
    "C33_batched_is_immediate",
    "C33_all_written",
    "C33_bounded",
    "C33_bounded_size_zero_refuted"
   ],
   "note": "The bound holds for cache sizes of at least 1 (the code uses 2000); a cache of size 0 is unbounded. Equivalence holds for every size."
  },
  {
   "property": "C34",
   "status": "partial",
   "theorems": [
    "C34_cache_left_behind_refuted",
    "C34_metadata_not_written_refuted",
    "C34_others_partial"
   ],
   "note": "False of the code: the blob cache of the realm stays registered after an exception. C34_others_partial: after any outcome of a write, objects that share nothing with the written one are as before, and their later writes store their content, if no cache stays registered for their realm."
  },
  {
   "property": "C35",
   "status": "partial",
   "theorems": [
    "C35_written_partial",
    "C35_history_partial",
    "C35_depth",
    "C35_empty_uuid_set_refuted",
    "C35_empty_directory_refuted",
    "C35_empty_dataset_tree_refuted"
   ],
   "note": "False of the code for empty UUID sets, empty directories and empty dataset trees. Proved: every other write to an existing local repository succeeds, unless two objects have one id or objects are nested as deep as the recursion limit; what is written can be read and written again (C24). C35_history_partial: this holds for every object in use after any sequence of calls as in C27, with a recursion limit above the number of objects (C35_depth)."
  },
  {
   "property": "C36",
   "status": "partial",
   "theorems": [
    "C36_tree_update",
    "C36_new_tree",
    "C36_modes_refuted",
    "C36_quoted_names_refuted"
   ],
   "note": "False of the code in two ways: the modes of untouched siblings are rewritten, and names that git quotes in listings are duplicated. Everything else is proved for every tree of plain names and every list of paths, with other processes running."
  },
  {
   "property": "C37",
   "status": "proved",
   "theorems": [
    "C37_flushed_not_lost"
   ],
   "note": "For a local repository whose reference tree, if there is one, can be read, and 40 digit ids."
  },
  {
   "property": "C38",
   "status": "proved",
   "theorems": [
    "C38_no_gap",
    "C38_converted"
   ],
   "note": "Every state between two git commands is covered."
  },
  {
   "property": "C39",
   "status": "proved",
   "theorems": [
    "C39_concurrent_flushes",
    "C39_no_deadlock"
   ],
   "note": "Any number of processes, any interleaving of their git and lock commands; processes may be killed at any point."
  },
  {
   "property": "C40",
   "status": "proved",
   "theorems": [
    "C40_lock_reentrant"
   ],
   "note": ""
  },
  {
   "property": "C41",
   "status": "partial",
   "theorems": [
    "C41_kept_partial",
    "C41_all_kept",
    "C41_recorded",
    "C41_unreferenced_record_refuted"
   ],
   "note": "Proved for everything the loader needs except the objects of root records that are elements of version lists; refuted for those: they are not added to the object references."
  },
  {
   "property": "C42",
   "status": "partial",
   "theorems": [
    "C42_own_realm_refuted",
    "C42_own_realm_partial"
   ],
   "note": "False of the code: recorded references are not kept apart by realm. Holds if every realm is flushed before objects of another realm are recorded."
  },
  {
   "property": "C43",
   "status": "proved",
   "theorems": [
    "C43_created",
    "C43_repeat",
    "C43_kept",
    "C43_others",
    "C43_returns",
    "C43_returns_loading",
    "C43_repository"
   ],
   "note": "For calls that return: the record is in the dataset tree and registered, whatever was missing is made with the given id, version, path and time, the same call again (also after other calls) returns the same object and changes nothing, and only entries for the arguments are added. C43_returns_loading: the call returns if what it looks at is in memory or stored in the repository, and this is kept by the call. C43_repository: this is the case for a repository whose published objects are well formed. Paths with a part named like records are excluded, see C52."
  },
  {
   "property": "C44",
   "status": "partial",
   "theorems": [
    "C44_lookup_partial",
    "C44_lookup_modifies_refuted"
   ],
   "note": "False of the code: an existing record is added to the version list of its dataset even if auto_create is False. Proved: nothing else is added or marked, and a record is returned only if it is in the dataset tree."
  },
  {
   "property": "C45",
   "status": "partial",
   "theorems": [
    "C45_partial_realm_refuted",
    "C45_opened_partial",
    "C45_lookup_partial"
   ],
   "note": "False of the code: if one of the two references is missing, both objects are created anew. C45_opened_partial: if both exist, the two objects returned show what is published, and nothing else changes. C45_lookup_partial: if one is missing, a look-up that does not create returns nothing and changes nothing."
  },
  {
   "property": "C46",
   "status": "partial",
   "theorems": [
    "C46_new_path_refuted",
    "C46_recorded_partial",
    "C27_add_run_at"
   ],
   "note": "False of the code: get_metadata returns None instead of raising AttributeError. C46_recorded_partial: where there is metadata, the run is added to it and nothing else changes, loaded or not. In histories as in C27: C27_add_run_at."
  },
  {
   "property": "C47",
   "status": "partial",
   "theorems": [
    "C47_failed_write_refuted",
    "C47_stale_mark_refuted",
    "C47_saved_partial",
    "C51_purge_partial"
   ],
   "note": "False of the code: realm is assigned before the write, and saved_on keeps realms for which the reference is no longer valid. C47_saved_partial: for objects of one realm, is_saved_on is true only if the repository has the current content. C51_purge_partial: what was written can be purged."
  },
  {
   "property": "C48",
   "status": "proved",
   "theorems": [
    "C48_hash_blob_input"
   ],
   "note": ""
  },
  {
   "property": "C49",
   "status": "partial",
   "theorems": [
    "C49_unusable_after_purge_refuted",
    "C49_unusable_copy_refuted",
    "C24_tree_version_list"
   ],
   "note": "False of the code: the mapper returns a reference of class VersionList, which a TreeVersionList refuses to read. What is stored has the content of the list (C24_tree_version_list)."
  },
  {
   "property": "C50",
   "status": "partial",
   "theorems": [
    "C50_len_refuted",
    "C50_eq_refuted",
    "C50_len_partial",
    "C50_runs_partial"
   ],
   "note": "False of the code: neither __len__ nor __eq__ loads the object. After it was loaded, both give what the object contains."
  },
  {
   "property": "C51",
   "status": "partial",
   "theorems": [
    "C51_purge_refuted",
    "C51_deepcopy_refuted",
    "C51_purge_partial",
    "C51_history_partial"
   ],
   "note": "False of the code: AttributeError for a record without dataset level metadata (metadatarootrecord.py 47-48). C51_purge_partial: with it, whatever was written can be purged and shows the same content then. C51_history_partial: after any sequence of calls as in C27, for every part of an object in use."
  },
  {
   "property": "C52",
   "status": "partial",
   "theorems": [
    "C52_reserved_refuted",
    "C52_blocked_refuted",
    "C52_sequence_partial"
   ],
   "note": "False of the code for paths with a part named .datalad_metadata_root_record. C52_sequence_partial: for other paths any sequence of calls returns records, and each call, repeated after the last one, returns its record and changes nothing."
  },
  {
   "property": "C53",
   "status": "partial",
   "theorems": [
    "C53_other_dataset_refuted",
    "C43_created"
   ],
   "note": "False of the code: if there is a record at the path already, it is returned and registered whatever its dataset id is. A record that the call makes has the given id and version (C43_created)."
  },
  {
   "property": "C54",
   "status": "partial",
   "theorems": [
    "C54_stale_record_refuted",
    "C43_created"
   ],
   "note": "False of the code: after they were read back the two are different objects, and changes of the one that is returned are not made to the other one. When a call makes or registers a record, both ways lead to one object (C43_created)."
  },
  {
   "property": "C55",
   "status": "proved",
   "theorems": [
    "C55_recorded"
   ],
   "note": "For the call with an empty dataset tree path and for writes that succeed. Contents as in C24, without empty trees; this is kept."
  },
  {
   "property": "C56",
   "status": "partial",
   "theorems": [
    "C56_stopped_refuted",
    "C56_kept_partial",
    "C56_found_partial"
   ],
   "note": "False of the code if a process is stopped between its two writes: the next one replaces what was published. Proved for any number of processes that complete both writes, in a repository with both references or none."
  },
  {
   "property": "C57",
   "status": "partial",
   "theorems": [
    "C57_new_list_refuted",
    "C57_twice_refuted",
    "C57_element_partial",
    "C57_metadata_partial",
    "C57_list_partial",
    "C57_element_returns",
    "C57_metadata_returns",
    "C57_list_returns",
    "C57_history_partial"
   ],
   "note": "False of the code for unget_version_list of a list that was not written before (AssertionError) or is not in memory (RuntimeError), because it is written without a destination. Proved for graphs as in C24; unget_version_list for lists that have a realm. The calls return under the conditions of C35 and C51. C57_history_partial: after any sequence of calls as in C27, elements, entries and lists of loaded lists, trees and UUID sets can be let go."
  },
  {
   "property": "C58",
   "status": "proved",
   "theorems": [
    "C58_getters"
   ],
   "note": "For histories as in C27. Where the content has no file tree get_file_tree may return an empty tree. The listings get_paths_recursive and dataset_paths: C17_history_partial."
  }
 ]
}