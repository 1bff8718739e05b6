#!/usr/bin/env python3
"""Writes MANIFEST.json and checks that every theorem named in it exists in rocq/theories."""
import json, re, pathlib
root = pathlib.Path(__file__).resolve().parent.parent
claims = []
def c(prop, status, theorems, note=""):
    claims.append({"property": prop, "status": status, "theorems": theorems.split(), "note": note})

c("C01", "proved", "C01_versions_immutable",
  "All histories on a handle opened on an inventory whose head is its newest version; any map order.")
c("C02", "proved", "C02_manifest_grows")
c("C03", "proved", "C03_always_resolvable C03_from_fresh_object")
c("C04", "proved", "C04_new_version_is_copy")
c("C05", "partial", "C05_numbering_contiguous C05_start_adds_one C05_fresh_object C05_padding_width_refuted",
  "Contiguity proved for every padding; for padded objects the fixed width is lost when the number outgrows it (refuted).")
c("C06", "proved", "C06_delete_exact C06_object_delete_exact")
c("C07", "partial", "C07_rename_exact C07_rename_collision_refuted",
  "Exactness proved for an absent destination; a rename onto a present path merges two contents (refuted).")
c("C08", "partial", "C08_added_file_present_partial C08_deleted_then_readded_is_lost C08_added_file_present_refuted",
  "False when a path was deleted and the same content is added again; the case is characterised exactly.")
c("C09", "partial", "C09_one_content_per_path_partial C09_plain_histories C09_dedup_update_refuted",
  "False for a de-duplicated update to content that is already stored; proved for histories without such collisions.")
c("C10", "partial", "C10_one_content_per_content_path_partial C10_same_path_twice_refuted C10_several_names_refuted",
  "False when a path is added twice in one version; proved when every add goes to a fresh content path.")
c("C11", "partial", "C11_no_change_writes_nothing_partial C11_without_dedup_refuted",
  "Proved with de-duplication; without it an orphan content file is written (refuted).")
c("C12", "partial", "C12_padded_update_fails C12_padded_new_path_partial",
  "False for every padded object and every recorded path; proved for new paths.")
c("C13", "proved", "C13_fixity_recorded")
c("C14", "partial", "C14_echo_deletion_partial C14_only_deletions_refuted C14_other_area_refuted C14_end_area_then_end_update_refuted",
  "Deletion is exact with respect to a string prefix; three counterexamples to the intended statement.")

c("C15", "partial", "C15_published_unchanged_before_close_partial C15_dotdot_refuted",
  "Proved for clean relative path names and all crash points; a path name with dot-dot elements replaces the root inventory (refuted).")
c("C16", "partial", "C16_writes_where_partial C16_earlier_content_unchanged_partial C16_dotdot_refuted",
  "Proved for clean relative path names and all crash points; refuted for path names with dot-dot elements.")
c("C17", "proved", "C17_close_then_load C17_end_update_then_load C17_crash_in_close")
c("C18", "partial", "C18_round_trip C18_accepts_only_partial C18_cut_rejected C18_wrong_name_refuted",
  "The unescaped dot of the regular expression accepts a text without the file name (refuted); otherwise characterised.")
c("C48", "partial", "C48_created_object_intact_partial C48_sessions_intact_partial C48_same_path_twice_refuted",
  "Proved for sessions that add content only under clean unused content paths; adding a path twice in one version breaks it (refuted).")

c("C19", "partial", "C19_corruption_reported_partial C19_corruption_reported_by_versions_partial C19_intact_not_reported C19_fixity_reported_partial C19_fixity_intact_not_reported C19_missing_folder_refuted C19_no_first_inventory_refuted C19_root_fixity_refuted",
  "Both directions proved for every validation that comes to a verdict, from the stored bytes on; three objects on which validation panics or gives up instead (refuted).")
c("C20", "partial", "C20_only_trailing_slash_partial C20_conflict_refuted C20_same_path_refuted",
  "False: E101 is reported only for paths that end with a slash.")
c("C21", "partial", "C21_conflict_reported_partial C21_plain_conflict_reported_partial C21_hidden_conflict_refuted",
  "Exact condition proved (no logical path sorts strictly between the two); completeness refuted.")
c("C22", "partial", "C22_malformed_content_reported C22_slash_reported C22_malformed_logical_reported C22_verdict_partial C22_empty_path_refuted C22_missing_created_refuted C22_short_path_refuted",
  "The path conditions are proved as equivalences; a verdict exists exactly for inventories without empty path and without missing creation date (panic otherwise, refuted); a content path without slash makes the file check panic (refuted).")
c("C23", "proved", "C23_sequence_reported C23_gap_reported")
c("C24", "partial", "C24_wrong_head_reported_partial C24_same_number_refuted",
  "Proved for version names with distinct numbers; with v1 and v01 the outcome depends on the map order (refuted).")
c("C25", "partial", "C25_order_independent_partial C25_other_codes_partial C25_verdict_exists C25_padding_refuted",
  "Proved for uniform version names, and for all codes but two in general; E011 and W001 depend on the order for mixed padding (refuted).")
c("C26", "partial", "C26_accepted_partial C26_mutual_manifest_partial C26_swapped_content_refuted C26_not_symmetric_refuted",
  "An accepted pair has the same versions and logical paths; contents are not compared and the comparison is not symmetric (refuted).")
c("C27", "partial", "C27_path_difference_reported_partial C27_comparison_exact_partial C27_other_content_refuted C27_metadata_exact",
  "Differences in the set of logical paths are always reported; differences in content are not (refuted).")
c("C28", "partial", "C28_injective_partial C28_injective_refuted",
  "Proved for identifiers without bytes below 16; a control character and a digit can look like the escape of another byte (refuted).")
c("C29", "proved", "C29_injective C29_defined", "")
c("C30", "partial", "C30_hash_and_id_not_nested C30_hashed_not_nested C30_hash_and_id_plain_partial C30_hashed_plain_partial C30_empty_identifier_refuted C30_short_root_refuted",
  "Nesting is excluded without restriction. Plain names need a non-empty identifier (0003) and tuples that do not use up the digest (0004, short root).")
c("C31", "partial", "C31_flat_partial C31_omit_prefix_partial C31_omit_prefix_not_nested_partial C31_pairtree_nested_partial C31_pairtree_injective_partial C31_direct_clean_partial C31_flat_nested_refuted C31_omit_prefix_same_refuted C31_pairtree_nested_refuted C31_pairtree_same_refuted C31_direct_clean_nested_refuted C31_pairtree_characters",
  "False for each of the four layouts; exact characterisations of when objects nest or collide are proved.")
c("C32", "partial", "C32_follows_partial C32_crash_iff_partial C32_crash_refuted C32_empty_part_refuted",
  "Holds for zeroPadding left or right; any other value crashes for non-empty parts (exact condition proved).")
c("C33", "partial", "C33_reload_partial C33_hash_layouts_lost C33_omit_prefix_lost C33_reload_refuted C33_direct_clean_defaults C33_direct_clean_fixed C33_chain_exact",
  "Holds for flat-direct, direct-path and direct-clean; the other five layouts write only their name.")
c("C34", "proved", "C34_reversible C34_short_reversible C34_injective", "")
c("C35", "partial", "C35_utf_safe C35_replacing_safe_partial C35_fallback_safe_partial C35_parent_refuted C35_forbidden_refuted C35_fallback_crash_refuted C35_invalid_bytes_partial",
  "Full in UTF mode; with replacement strings only for harmless ones; fallback paths only for sensible fallback parameters.")
c("C36", "partial", "C36_one_hashed_partial C36_any_schedule_partial C36_no_deadlock C36_sum_before_unlock C36_concurrent_refuted",
  "False with two concurrent fallbacks: the digest is read after the mutex is released. Proved when at most one path depends on the hash, and in full for the program with the two lines exchanged.")
c("C37", "partial", "C37_one_of_group_partial C37_others_stay C37_sort_keeps C37_sorted C37_repeated_name_refuted C37_shared_name_refuted",
  "False for groups with a repeated name and for groups sharing a name; proved for all other groups and any sorting function.")
c("C38", "partial", "C38_round_trip_partial C38_full_area C38_other_area_partial C38_below_folder_partial C38_unknown_area C38_round_trip_refuted C38_other_area_refuted C38_default_area C38_absolute_folder",
  "False for folders such as ./data (not found again) and for folders that begin with one another (content, content2); proved for all other folders and all clean paths.")
c("C39", "partial", "C39_only_stored_content C39_complete_partial C39_whole_object C39_nothing_else C39_verdict_order C39_mismatch_fails_partial C39_manifest_file_partial C39_iteration C39_iteration_fails C39_complete_refuted C39_mismatch_refuted C39_clash_refuted C39_manifest_overwrites_refuted",
  "False if one content is used in two areas: the callback stops at the first path of another area and files are silently skipped, damaged or not. Proved in full for the whole object, and for areas whose paths are not mixed within a digest.")
c("C40", "partial", "C40_found_once_partial C40_sorted_object C40_listing_order_refuted C40_foreign_directory_refuted",
  "False if a directory of an object is listed before its first file; proved for all other directory trees, and the listing condition derived for listings in byte order.")
c("C41", "partial", "C41_exact_partial C41_content_checked C41_none C41_two_declarations C41_root_partial C41_object_partial C41_other_name_refuted C41_copy_refuted C41_unknown_version_refuted C41_no_declaration_refuted C41_valid_version_refuted",
  "False: the expression is not anchored, unknown object versions count as 1.0, a storage root without declaration is loaded. Exact for listings in which no other file name contains a declaration.")
c("C42", "partial", "C42_occupied C42_existing_unchanged C42_success C42_same_folder C42_root_occupied C42_mapping_error_refuted",
  "Nothing is ever destroyed (proved in full); the last clause is false, the error of the path mapping is ignored.")
c("C43", "partial", "C43_nothing_lost C43_printed C43_no_errors C43_class_kept C43_once_partial C43_once_short_partial C43_order_refuted C43_twice_refuted C43_ambiguous_refuted",
  "Nothing is lost and the error count is right (proved for any sort). Duplicates are removed only if the comparison is consistent or at most twelve findings are sorted, and if the concatenated texts are unambiguous (refuted otherwise).")
c("C44", "proved", "C44_search C44_insert C44_insert_at C44_duplicates", "")
c("C45", "partial", "C45_well_formed_partial C45_idempotent C45_parent_refuted C45_backslash_refuted C45_empty_refuted C45_fix_absolute_refuted",
  "All but the last clause proved for all strings and limits; dot-dot elements pass (refuted), as do backslashes and the empty path.")
c("C46", "partial", "C46_terminates C46_once_per_handle_partial C46_project_extensions C46_same_histories C46_without_flag_refuted C46_failing_refuted C46_second_update_refuted",
  "Termination and at most one version per EndUpdate proved for all extensions with a done flag, and the project's extensions have one. One follow-up per extension and handle is false when another extension fails during the follow-up (refuted); proved with one more version allowed per failed EndUpdate.")
c("C47", "partial", "C47_in_order C47_no_deadlock C47_terminates C47_errors_reported C47_source_error C47_source_error_refuted C47_hanging_refuted",
  "All schedules, chunkings, buffer sizes and numbers of extensions proved while the source is read without error. After a read error the extensions see a clean end of file and their errors are lost (refuted); an extension that never returns keeps the call from returning (refuted).")
c("C49", "partial", "C49_sound_accepted_partial C49_content_directory_refuted C49_upper_case_sidecar_refuted",
  "Proved for all objects whose digests are written in lower case in the digest files, if the name of the content directory is not the beginning of inventory.json.sha512 or inventory.json.sha256; false for such a name and for digest files in upper case (refuted).")

c("C50", "partial", "C50_published_valid_partial C50_rename_refuted C50_empty_path_refuted C50_same_path_refuted C50_open_update_refuted C50_late_add_refuted C50_empty_update_refuted",
  "Proved for sessions in which every update changes something and is ended, new content goes to unused clean paths, logical paths are proper and version names are unpadded. Without these conditions successful calls produce invalid objects, three of which make the validator panic.")
c("C51", "partial", "C51_text_round_trip_partial C51_valid_text_round_trip C51_validator_reads_back_partial C51_loader_reads_back_partial C51_cut_text_rejected C51_encoding_ok_partial C51_created_object_intact_partial C51_sessions_intact_partial C51_published_valid_partial C51_text_refuted C51_invalid_name_refuted",
  "Proved for inventories whose strings are valid UTF-8; truncation is proved for all inventories. A file name that is not valid UTF-8 is stored under one name and recorded under another (refuted).")
c("C52", "partial", "C52_flaws_reported_partial C52_type_rejected C52_no_object_rejected C52_accepted_root_partial C52_accepted_version_partial C52_names_ignore_case C52_null_absent C52_number_refused C52_type_spelling_refuted C52_content_directory_refuted C52_fixity_refuted C52_manifest_refuted C52_required_parts_refuted C52_written_twice_refuted C52_null_refuted",
  "Proved for identifier, type, algorithm, head, versions and the parts of a version, if no member is written twice. False (refuted) for content directory, fixity and manifest, for a version without state or a user without name, and for members written twice; null and numbers in place of head or versions make the program panic.")
c("C53", "partial", "C53_inventory_partial C53_accepted_assured_partial C53_retrievable_partial C53_hidden_conflict_refuted C53_no_content_path_refuted C53_outside_content_refuted C53_no_version_inventory_refuted",
  "Inventory: accepted exactly if it satisfies the rules, given that no logical path is a directory of another. Objects: proved for all stored inventories, digests, manifests and fixity blocks; retrieval if no digest has an empty list of content paths. False: content outside of the content directory and a missing inventory of the newest version bring only warnings, a hidden path conflict or an empty list of content paths is accepted.")
c("C54", "partial", "C54_files_accounted_partial C54_listed_by_versions C54_other_folder_warned_partial C54_surplus_refuted",
  "Proved for the object root, the content directory and the files of version folders; files in other folders of a version bring a warning only if the version has an inventory, and none at all if the folder's name is the beginning of the content directory's (refuted).")
c("C55", "partial", "C55_created_comes_back_partial C55_plain_comes_back C55_areas_come_back_partial C55_hooks_partial C55_hooks_elsewhere_partial C55_closed_file C55_unreadable_refuted C55_root_refuted C55_shared_content_refuted",
  "Proved for all readable folders: without path extensions unconditionally, with areas if no content is in two areas and no area folder begins with another. A directory that cannot be read is left out without an error, an unreadable source makes the program panic, and content shared by two areas is missing in one of them after extraction (refuted).")
c("C56", "partial", "C56_update_partial C56_plain_update_partial C56_areas_update_partial C56_hooks_partial C56_hooks_elsewhere_partial C56_revived_refuted C56_dedup_refuted C56_only_deletions_refuted C56_unreadable_refuted C56_similar_areas_refuted",
  "Proved if no deleted file comes back with its old content, with de-duplication no file changes to stored content, and something is new; echo deletion reaches the main area only. Each condition is needed (refuted).")
c("C57", "proved", "C57_history C57_versions_stay", "For objects made by complete sessions with unpadded version names; the history theorem is for requests under the conditions of C55 and C56.")
c("C58", "partial", "C58_ingested_valid_partial C58_text_valid_partial C58_mirrored_valid C58_file_directory_refuted",
  "For objects without path extensions and unpadded version names. An update without echo deletion can make a name a file and a directory, and then the object is invalid (refuted); with echo deletion in every update this cannot happen.")
c("C59", "partial", "C59_outside_untouched C59_interleaved C59_interleaved_complete C59_requests_succeed_partial C59_storage_root_partial C59_hashed_apart C59_hash_and_id_apart_partial C59_objects_valid_partial C59_nested_refuted C59_same_folder_refuted C59_version_refuted",
  "For identifiers whose folders are apart (layouts 0003 and 0004), storage roots of version 1.0 or 1.1 and the requests of C55 and C56. Refuted for the flat layout (nested identifiers make the first object invalid) and flat-omit-prefix (a request updates the object of another identifier); a 2.0 root writes 1.0 inventories into 2.0 objects.")
c("C60", "partial", "C60_report_exact C60_report_error C60_report_order_partial C60_every_file_reported C60_report_order_refuted C60_later_path_refuted",
  "Exactness is proved for all inventories and orders. The report is the same for all map orders only if no content path has two digests of one fixity algorithm (refuted otherwise), and fixity digests of later content paths are not reported (refuted).")
c("C61", "partial", "C61_read_back_partial C61_stays_partial C61_capital_type_refuted C61_path_twice_refuted C61_path_slash_refuted C61_no_name_refuted",
  "For storage types area with a configured folder, path without content areas or with default area full, and extension; persistence for files in version folders. Refuted for capital letters in the type, type path with content areas, an empty storage name; type path without areas makes an invalid logical path.")
c("C62", "partial", "C62_recorded C62_metadata_partial C62_published_partial C62_nothing_streamed_refuted C62_added_twice_refuted C62_closed_writer_refuted",
  "For sessions in which something is streamed, with new content paths for new files. A version without streamed file makes GetMetadata fail for ever, a path added twice in a version gets the wrong result, and hooked adds or a second update after the writer is closed fail (refuted).")
c("C63", "partial", "C63_migrated_partial C63_started C63_calls_partial C63_asked C63_once C63_deleted_file_refuted C63_other_area_refuted C63_same_target_refuted C63_deleted_target_refuted C63_unrelated_file_refuted C63_folder_again_refuted C63_listed_twice_refuted",
  "For contents of the default area that are in the previous version, with unpadded version names, and targets that do not clash with each other or with originals. A planned content that was deleted makes the update panic, one in another area makes it fail, clashing or earlier deleted targets lose the file from the new version, and folder migrations of migrated files move them to the empty name (refuted).")
c("C64", "partial", "C64_planned_partial C64_metadata C64_same_result_refuted C64_again_panics_refuted C64_stray_line_refuted",
  "If no two contents are converted to the same result; otherwise one is planned again with the next update, which panics if the originals were deleted (refuted).")
c("C65", "partial", "C65_accepted_partial C65_reported_partial C65_located_partial C65_finished_partial C65_stops_refuted C65_panic_refuted C65_same_id_refuted C65_empty_directory_refuted C65_stray_file_refuted",
  "Proved for regular storage roots: a hierarchy as in C40, file names that contain a declaration only if they are one, extensions folders as the program writes them, and no unknown extension in the root. Refuted: an object whose validation ends with an error or a panic ends the whole run without any output; two objects with the same identifier and empty directories are accepted; a stray file hides the objects listed after it.")
c("C66", "partial", "C66_object_partial C66_root_panics C66_root_refuted C66_manager_alone_refuted C66_own_manager_refuted",
  "Proved for the extensions folder of an object as the program writes it. Refuted for the storage root, where one unknown extension makes loading panic, for a manager without the folder initial, and for another manager in the folder initial.")
c("C67", "partial", "C67_objects_found C67_filled_valid_partial C67_text_valid_partial C67_init_started C67_extensions_refuted",
  "Proved for histories as in C59 (the folders of the identifiers apart from each other), without path extensions, for contents in which no name is a file and a directory (C58), for folders outside the extensions folder, and for extensions as in C65. Refuted: with the flat layout an object with the identifier extensions is created without error, and from then on the root cannot be loaded or validated.")
c("C68", "partial", "C68_whole_root_partial C68_latest C68_one_object C68_not_created C68_target_kept C68_missing_version_refuted C68_area_refuted C68_damaged_refuted",
  "Proved for histories as in C67. Refuted: if one object does not have the requested version, or is damaged, the extraction of the whole root ends there and the objects after it are missing; the requested area is ignored for the whole root, always the default area is extracted. Without the manifest file (see C39 for it).")
c("C69", "partial", "C69_objects_reported C69_files_reported_partial C69_one_fails C69_same_identifier_refuted",
  "Proved for histories as in C67; the files for objects without path extensions. Refuted for other roots: two objects with the same identifier have one entry. One failing extension of one object means that there is no report at all (C69_one_fails).")
c("C70", "partial", "C70_reported_partial C70_published_partial C70_folder_session_partial C70_folder_stays_partial C70_no_source_refuted C70_second_update_refuted C70_given_again_refuted C70_capital_type_refuted C70_path_twice_refuted C70_no_object_refuted C70_query_refuted C70_folder_abandoned_refuted C70_disk_source_partial C70_failed_once_refuted C70_empty_source",
  "Proved for finished sessions that change something, each with a new handle, and storage configurations for which the reader means the file of the writer. Refuted: a handle without the parameter panics; a second update with one handle ignores the source; metadata that is given again unchanged, without other changes, leaves a file in the folder of a version that does not exist and the object is invalid; storage types with capitals and paths with content areas are never found; metadata that is no JSON object; a URL with a query; in the folder of the extension an update that is never closed replaces the metadata of the published versions; after an update that could not read the source, a second one with the same handle succeeds without the metadata.")
c("C71", "proved", "C71_read_exactly C71_unicode_read C71_same_inventory C71_written_text C71_edited_inventory C71_other_text_refused C71_deep_text_refuted C71_case_order_refuted C71_surrogates_refuted",
  "Proved as stated. The refutations show that the limits in the statement are needed: texts nested deeper than 10000 are refused; members whose names differ only in case must keep their order, the last one counts; names with lone surrogates are replaced and can become equal.")
c("C72", "partial", "C72_made_partial C72_once_partial C72_report_partial C72_extension_partial C72_panic_refuted C72_file_refuted C72_failure_final_refuted C72_type_case_refuted",
  "Proved for finished sessions that change something, storage in the versions with types for which writer and reader agree, and for one run of the hook with storage in the folder of the extension. Refuted: without SingleDirectory a random number below 16 of the 64 panics; the file name that is reported for a source does not exist; a failed function is never tried again; with a type that is not in lower case every update makes all thumbnails again.")
c("C73", "partial", "C73_listed_partial C73_documents_partial C73_metadata_partial C73_primary_partial C73_premis_partial C73_migration_partial C73_stored_partial C73_content_folder_refuted C73_digest_type_refuted C73_premis_path_refuted C73_extension_refuted C73_struct_refuted C73_reference_ids_refuted C73_metadata_folder_refuted C73_area_path_refuted C73_default_refuted C73_path_twice_refuted C73_event_object_refuted",
  "Proved for working states of sessions of objects that the software made, content folder content, areas with different paths, logical paths listed once, storage types area and path. Refuted: with another content folder no documents are made and nothing fails; entries say SHA-512 whatever the digest; the internal path of the PREMIS document names no file; in the folder of the extension the PREMIS file has the METS text; struct map identifiers without definition; repeated identifiers; a content folder called metadata is left out and an area metadata with a longer path is listed as content; the configuration of a new extension makes every update fail; storage type path uses the content path twice; events about objects that are not there.")
c("C74", "partial", "C74_recorded C74_folder_recorded_partial C74_report_partial C74_published_partial C74_same_content_refuted C74_first_folder_refuted C74_echo_folder_refuted C74_renamed_refuted",
  "Recording proved for files that are stored; folders if the empty file is already in the object or the areas do not change its path; the report is described exactly for all histories. Refuted: a file with content that is already there has no metadata; the first empty file with content areas is recorded under the path before the mapping, so the folder is missing from the report; echo deletion takes the other folders out of the version again; a file that gets the path of another one in the same session is reported with the metadata of the other.")
c("C75", "partial", "C75_versions_kept_partial C75_not_closed_partial C75_one_closes_partial C75_lost_update_refuted C75_mixed_root_refuted C75_overwritten_content_refuted C75_late_end_refuted",
  "Old versions and the published inventory are kept for all interleavings and crash points, for clean relative names as in C16. The update of a closed handle is published if the others are not closed and store nothing under its content paths. Refuted: two handles closed one after the other lose the first update and leave an invalid object; closed at the same time they mix inventory and digest file; a handle that is not closed replaces content or the inventory of the version which another one has published.")
c("C76", "partial", "C76_retry_partial C76_left_over_refuted C76_other_folder_refuted C76_area_order_refuted C76_creation_refuted",
  "Proved: after any number of attempts for the same folders, each with some files that cannot be opened and stopped at any moment, the request gives exactly the files it gives without them, under the conditions of C56. Directories that cannot be read in an attempt are not covered, because the walk goes on after them. Refuted: the object is invalid between the attempts; a file taken out of the folder, or another map order of the areas, leaves content of the attempt behind in the published version; an object whose creation failed can never be created or updated.")
c("C77", "partial", "C77_codes C77_other_codes_partial C77_no_errors C77_announced_partial C77_lines C77_report C77_unknown_code_refuted",
  "Proved for all objects: version 1.1 shows exactly the recorded codes; for every version no errors are announced exactly if only warnings were recorded, every line tells place, text and arguments of a finding and every finding has a line, and there is a report exactly if the check came to its end. In all other versions E103 and E107 are shown as E000 and E104 as E001, the other codes as recorded; refuted for E107.")
c("C78", "partial", "C78_extracted_partial C78_areas_partial C78_loaded C78_upper_case_refuted C78_no_content_path_refuted C78_two_contents_refuted",
  "Proved for all accepted objects whose digests are in lower case and have a content path: loading and extraction of every version succeed, with and without areas, and every file has content of a digest recorded for it. Refuted for upper-case digests, for digests without content path, and for paths listed under two digests.")
c("C79", "partial", "C79_versions_kept_partial C79_reopened_partial C79_no_content_path_refuted C79_dotdot_refuted",
  "Proved for all accepted objects in which every digest has a content path, and all sequences of handles that give new content clean relative paths: every old version is extracted as before at every crash point, and after Close the loader gives an inventory with the old versions. Refuted for digests without content path and for names with dots.")
c("C80", "partial", "C80_download_partial C80_digest_partial C80_remembered_partial C80_no_panic_partial C80_same_object_partial C80_some_object_partial C80_extension_partial C80_other_object_refuted C80_mixed_refuted C80_extension_refuted C80_remembered_refuted C80_stale_refuted",
  "Proved: requests one after the other, after any history (the delivered content is that of the digest in an object with the identifier or at its place; its digest is right if the content of the root is intact); the history does not show if every object is where the layout puts it; no panic unless loading panics; requests at the same time if all are for one identifier; extension files with plain names. Refuted: requests at the same time for two objects, dots in the path of an extension file, two objects with one identifier, updates while the server runs.")
c("C81", "partial", "C81_stays_sound_partial C81_stays_valid_partial C81_next_update_partial C81_fixity_case_refuted C81_manifest_case_refuted",
  "Proved for objects that follow the rules of the specification (sound_object of C49) and are written in plain style: version names without leading zeros, one digest algorithm, digests in lower case, a state in every version; after any number of complete sessions the object is sound and plain again, the validator accepts it, and the next session can begin. Refuted for fixity digests in upper case (the update of an accepted object gives E097) and for manifest digests in upper case (known content is stored again, two spellings of one digest, and the validator does not notice). Missing: accepted objects that are not sound, zero-padded version names.")
c("C82", "partial", "C82_kept_partial C82_told_partial C82_dedup_partial C82_readable C82_loaded C82_digest_file C82_load_refuted C82_refuted",
  "Refuted: LoadInventory returns an empty inventory and no error if the inventory cannot be read for another reason than that it is missing, and an update without de-duplication on this handle truncates content files of existing versions, after which the object is invalid. Proved for all sessions and stop points on such a handle: every file is as before or empty, only content files can be emptied, declarations, inventories and digest files stay; every call that adds a file fails; with de-duplication nothing is written. If the inventory and its digest file can be read, the loader is the one of the other properties.")
c("C83", "proved", "C83_reported C83_sound C83_readable",
  "The failing reads are those of LoadInventory; directory listings and the reads for the digests of content files succeed (if they fail, the validator returns their error). C83_empty_example shows that the version folder is needed: a directory without one is accepted while its inventory cannot be read.")
c("C84", "partial", "C84_titles_partial C84_version_partial C84_summary C84_configs C84_root_partial C84_named C84_status C84_root_configs C84_words C84_other_words C84_word_list C84_path_refuted C84_selection_refuted C84_without_effect C84_unloadable_refuted",
  "False in full: the line labelled Path shows the digest algorithm (C84_path_refuted), state and manifest are shown only together with the versions (C84_selection_refuted), three of the nine names have no effect (C84_without_effect), and one object that cannot be loaded hides all later ones (C84_unloadable_refuted). Proved: sections, files, content paths, counts and configurations for every inventory, selection and map order; roots whose objects all load; objects named by folder or identifier; the words of the option.")
names = set()
for f in (root / "rocq/theories").glob("*.v"):
    names |= set(re.findall(r"^\s*Theorem\s+(\w+)", f.read_text(), re.M))
props = {json.loads(l)["id"] for l in (root / "properties.jsonl").read_text().splitlines() if l.strip()}
for x in claims:
    assert x["property"] in props, x["property"]
    for t in x["theorems"]:
        assert t in names, t
used = {t for x in claims for t in x["theorems"]}
print("theorems not in the manifest:", sorted(n for n in names - used if re.match(r"C\d\d", n)))
print("properties without claim:", sorted(props - {x["property"] for x in claims}))
(root / "MANIFEST.json").write_text(json.dumps({"claims": claims}, indent=1) + "\n")
