{"id": "C01", "title": "Recorded versions are immutable", "statement": "Whatever sequence of calls is made on an object opened for update (adding data, adding with de-duplication, deleting, renaming, echo deletion, starting further versions), the logical state, message, user and date recorded for every version that existed before the sequence started are unchanged afterwards, except that calls without a new version may change the version that was the head when they ran.", "quantifier": "all inventories, all histories of update calls of any length, all map iteration orders", "why_tests_cant": "A test runs a few histories; silent sharing of slices or maps between versions shows up only in particular interleavings of add/delete/rename/new version.", "anchors": ["pkg/ocfl/inventorybase.go:NewVersion", "pkg/ocfl/inventorybase.go:AddFile", "pkg/ocfl/inventorybase.go:DeleteFile", "pkg/ocfl/inventorybase.go:RenameFile", "pkg/ocfl/inventorybase.go:CopyFile", "pkg/ocfl/helper.go:copyMapStringSlice"]}
{"id": "C02", "title": "Content addressing only grows", "statement": "No update call ever removes or reorders a content path already recorded for a digest: after any history the list of content paths recorded for each digest extends the earlier list.", "quantifier": "all inventories, all histories of update calls, all map iteration orders", "why_tests_cant": "Losing one manifest entry on a rare branch makes old versions unreadable; a test sees only the branches it runs.", "anchors": ["pkg/ocfl/inventorybase.go:AddFile", "pkg/ocfl/inventorybase.go:CopyFile", "pkg/ocfl/inventorybase.go:DeleteFile", "pkg/ocfl/inventorybase.go:echoDelete"]}
{"id": "C03", "title": "Every logical file stays resolvable", "statement": "Starting from a freshly created object, after any history of update calls, every digest referenced by the state of any version has at least one content path recorded, so listing or extracting any version never fails for a missing or empty manifest entry.", "quantifier": "all histories from the empty object, every version, every digest", "why_tests_cant": "Referential integrity over unbounded histories is an invariant; a test checks single histories.", "anchors": ["pkg/ocfl/inventorybase.go:AddFile", "pkg/ocfl/inventorybase.go:CopyFile", "pkg/ocfl/inventorybase.go:IterateStateFiles", "pkg/ocfl/objectbase.go:addReader", "pkg/ocfl/objectbase.go:AddFile"]}
{"id": "C04", "title": "A new version starts as a copy of the previous one", "statement": "Starting an update on an object with a head version produces a new head whose logical state maps exactly the same logical paths to exactly the same digests as the previous head, and for an object without versions an empty state.", "quantifier": "all inventories with a well-formed head", "why_tests_cant": "Must hold for every state, not only small fixtures.", "anchors": ["pkg/ocfl/inventorybase.go:NewVersion", "pkg/ocfl/helper.go:copyMapStringSlice"]}
{"id": "C05", "title": "Version numbering is contiguous and the head is the newest version", "statement": "From a fresh object, after any number of started updates the recorded versions are exactly v1..vn and the head is vn; the validator accepts the numbering. For an object with zero-padded numbers the same holds with the padded form.", "quantifier": "all numbers of updates, unpadded and every padding width", "why_tests_cant": "Overflow of the padding happens at 10, 100, 1000... updates and is never reached by a unit test.", "anchors": ["pkg/ocfl/inventorybase.go:NewVersion", "pkg/ocfl/inventorybase.go:checkVersions", "pkg/ocfl/inventorybase.go:GetVersionStrings"]}
{"id": "C06", "title": "Deleting a file removes exactly that file", "statement": "After deleting a logical path from the working version the path is absent from the head state, every other logical path keeps its digest and its multiplicity, no digest key disappears from the head state, and the object counts as modified exactly when the path was present.", "quantifier": "all states, all paths", "why_tests_cant": "Needs every state/path combination including paths sharing a digest.", "anchors": ["pkg/ocfl/inventorybase.go:DeleteFile", "pkg/ocfl/objectbase.go:DeleteFile"]}
{"id": "C07", "title": "Renaming a file moves exactly that file", "statement": "After renaming a logical path that is present to a path that is absent, the new path has the digest the old path had, the old path is absent and all other paths are unchanged; renaming never makes two different contents share a logical path.", "quantifier": "all states, all source and destination paths", "why_tests_cant": "The collision case (destination already present) needs a specific state that tests do not build.", "anchors": ["pkg/ocfl/inventorybase.go:RenameFile", "pkg/ocfl/objectbase.go:RenameFile"]}
{"id": "C08", "title": "A file that was added is in the version", "statement": "After successfully adding content under a logical path in the working version, the head state maps that path to the digest of that content, whatever the earlier history of the path was (never seen, unchanged, changed, or deleted earlier) and whether or not de-duplication is on.", "quantifier": "all histories, all paths, all contents, both de-duplication settings", "why_tests_cant": "The failing histories are multi-step (delete in one version, add the same content again later).", "anchors": ["pkg/ocfl/objectbase.go:AddFile", "pkg/ocfl/objectbase.go:AddData", "pkg/ocfl/objectbase.go:AddReader", "pkg/ocfl/inventorybase.go:AddFile", "pkg/ocfl/inventorybase.go:AlreadyExists", "pkg/ocfl/inventorybase.go:IsUpdate", "pkg/ocfl/inventorybase.go:CopyFile"]}
{"id": "C09", "title": "A logical path names one content per version", "statement": "In every version reachable by update calls a logical path is listed under at most one digest and at most once.", "quantifier": "all histories of update calls from a fresh object", "why_tests_cant": "Depends on history: only some interleavings of update and de-duplication list a path twice.", "anchors": ["pkg/ocfl/inventorybase.go:AddFile", "pkg/ocfl/inventorybase.go:CopyFile", "pkg/ocfl/inventorybase.go:RenameFile"]}
{"id": "C10", "title": "A content path stores one content", "statement": "In every reachable inventory a content path is recorded under at most one digest and at most once, so no stored content file is claimed to have two digests.", "quantifier": "all histories of update calls from a fresh object", "why_tests_cant": "Needs repeated adds in one version or name mappings that collide.", "anchors": ["pkg/ocfl/inventorybase.go:AddFile", "pkg/ocfl/inventorybase.go:BuildManifestName", "pkg/ocfl/objectbase.go:addReader"]}
{"id": "C11", "title": "An update without changes writes nothing", "statement": "An update that only re-adds, with de-duplication, files whose content is already current leaves the stored object byte-for-byte unchanged: no file is created or rewritten in the object's directory apart from the empty extension folders.", "quantifier": "all objects, all lists of unchanged files, with and without de-duplication", "why_tests_cant": "A frame property over the whole storage for all inputs.", "anchors": ["pkg/ocfl/objectbase.go:AddFile", "pkg/ocfl/objectbase.go:EndUpdate", "pkg/ocfl/objectbase.go:Close", "pkg/ocfl/inventorybase.go:AlreadyExists", "pkg/ocfl/inventorybase.go:Clean"]}
{"id": "C12", "title": "Objects with zero-padded version numbers can be updated", "statement": "Adding a file whose logical path already occurs in some version works the same for objects whose versions are numbered with zero padding as for unpadded ones.", "quantifier": "all padded inventories, all paths", "why_tests_cant": "Fixtures use unpadded versions; the statement is about every padding.", "anchors": ["pkg/ocfl/inventorybase.go:AlreadyExists", "pkg/ocfl/inventorybase.go:IsUpdate", "pkg/ocfl/inventorybase.go:NewVersion"]}
{"id": "C13", "title": "Fixity digests are recorded for every added file", "statement": "After adding content with a set of fixity algorithms, for each algorithm the recorded fixity block lists the new content path under the digest computed for it, lists it at most once there, and no entry recorded earlier for any algorithm is lost.", "quantifier": "all inventories, all checksum sets", "why_tests_cant": "All algorithm sets and all previous fixity blocks.", "anchors": ["pkg/ocfl/inventorybase.go:AddFile", "pkg/ocfl/objectbase.go:addReader"]}
{"id": "C14", "title": "Echo deletion removes exactly the vanished files of the area", "statement": "With echo on, after the update the head state of the updated area contains exactly the logical paths added or confirmed during the update, and logical paths outside the area are untouched.", "quantifier": "all states, all sets of confirmed files, all areas", "why_tests_cant": "Areas whose names are prefixes of one another and empty updates are corner cases of an unbounded space.", "anchors": ["pkg/ocfl/inventorybase.go:echoDelete", "pkg/ocfl/objectbase.go:echoDelete", "pkg/ocfl/objectbase.go:EndArea", "pkg/ocfl/objectbase.go:EndUpdate"]}
{"id": "C15", "title": "The published inventory changes only when the object is closed", "statement": "At every point before Close - including every crash point during StartUpdate, any number of adds and EndUpdate - the inventory and its digest file in the object root are byte-identical to what they were before the update.", "quantifier": "all update sequences, every prefix of the resulting storage writes", "why_tests_cant": "Crash points: a test cannot stop the process between every two writes.", "anchors": ["pkg/ocfl/objectbase.go:StoreInventory", "pkg/ocfl/objectbase.go:EndUpdate", "pkg/ocfl/objectbase.go:Close", "pkg/ocfl/objectbase.go:addReader"]}
{"id": "C16", "title": "Stored content of earlier versions is never overwritten", "statement": "At every crash point of every update no file stored for an earlier version is changed or removed; all writes go below the new version directory, the extension folders, or are the root inventory and its digest file.", "quantifier": "all update sequences, all logical path names, every prefix of the writes", "why_tests_cant": "Path names are unbounded; names that climb directories are not in any fixture.", "anchors": ["pkg/ocfl/objectbase.go:addReader", "pkg/ocfl/objectbase.go:BuildNames", "pkg/ocfl/inventorybase.go:BuildManifestNameVersion", "pkg/ocfl/objectbase.go:StoreInventory"]}
{"id": "C17", "title": "After Close the inventory and its digest file agree", "statement": "After a completed Close the digest file of the root inventory, read back with the loader's rules, contains the digest of the bytes of the root inventory, likewise for the version directory after EndUpdate; a crash between the two root writes is reported as a digest mismatch when the object is loaded (unless the digests collide or the inventory did not change).", "quantifier": "all inventories, all digest algorithms, every crash point of Close", "why_tests_cant": "Crash points and all byte contents.", "anchors": ["pkg/ocfl/objectbase.go:StoreInventory", "pkg/ocfl/objectbase.go:LoadInventory", "pkg/ocfl/objectbase.go:inventorySideCarFormat"]}
{"id": "C18", "title": "Digest file format round-trips", "statement": "For every digest the text written to the digest file is accepted by the loader and yields the same digest string; texts without a hexadecimal digest or without the file name are rejected.", "quantifier": "all hexadecimal digests, all texts", "why_tests_cant": "All byte strings.", "anchors": ["pkg/ocfl/objectbase.go:StoreInventory", "pkg/ocfl/objectbase.go:LoadInventory"]}
{"id": "C19", "title": "Corrupted or missing content is reported", "statement": "If the inventory records content path p under digest d and the stored file p is missing or has another digest, validation reports E092; if every recorded content path is stored with its digest, no E092 is reported by the content check; the same for the fixity block and E093.", "quantifier": "all inventories, all stored contents", "why_tests_cant": "Detection must hold for every corruption.", "anchors": ["pkg/ocfl/inventorybase.go:CheckFiles", "pkg/ocfl/objectbase.go:createContentManifest"]}
{"id": "C20", "title": "Conflicting content paths are reported", "statement": "If one recorded content path is a directory prefix of another one (or two are equal) validation reports E101.", "quantifier": "all manifests", "why_tests_cant": "The check sorts paths; its completeness is a statement about all path sets.", "anchors": ["pkg/ocfl/inventorybase.go:checkManifest"]}
{"id": "C21", "title": "Conflicting logical paths are reported", "statement": "Validation reports E095 if and only if in some version one logical path is a directory prefix of another.", "quantifier": "all version states", "why_tests_cant": "Only path sets with a third path sorting in between expose a gap.", "anchors": ["pkg/ocfl/inventorybase.go:checkVersions"]}
{"id": "C22", "title": "Malformed paths are reported", "statement": "For every non-empty path in manifest, fixity and state, validation reports the invalid-path error if and only if the path starts or ends with a slash or has an empty, '.' or '..' element; validation terminates with a verdict for every inventory.", "quantifier": "all paths, all inventories", "why_tests_cant": "All strings, including the empty one.", "anchors": ["pkg/ocfl/inventorybase.go:checkManifest", "pkg/ocfl/inventorybase.go:checkFixity", "pkg/ocfl/inventorybase.go:checkVersions"]}
{"id": "C23", "title": "Gaps in the version sequence are reported", "statement": "Validation reports E010 if and only if the version numbers in the inventory are not exactly 1..n.", "quantifier": "all finite sets of version names", "why_tests_cant": "All sets, in any iteration order.", "anchors": ["pkg/ocfl/inventorybase.go:checkVersions", "pkg/ocfl/inventorybase.go:Finalize"]}
{"id": "C24", "title": "A wrong head is reported", "statement": "For an inventory with well-formed version names and a non-empty head, validation reports E040 if and only if the head is not the version with the highest number.", "quantifier": "all finite sets of version names, all heads, all iteration orders", "why_tests_cant": "All sets, in any iteration order.", "anchors": ["pkg/ocfl/inventorybase.go:checkVersions", "pkg/ocfl/inventorybase.go:GetVersionStrings", "pkg/ocfl/inventorybase.go:VersionLessOrEqual"]}
{"id": "C25", "title": "The validation verdict does not depend on map order", "statement": "Validating the same inventory twice yields the same set of error codes.", "quantifier": "all inventories, all pairs of map iteration orders", "why_tests_cant": "Go randomises map iteration; a test observes one order per run.", "anchors": ["pkg/ocfl/inventorybase.go:checkVersions", "pkg/ocfl/inventorybase.go:checkManifest", "pkg/ocfl/inventorybase.go:checkFixity"]}
{"id": "C26", "title": "Root and version inventory comparison detects differences", "statement": "The comparison of the root inventory with the newest version's inventory (E064) accepts only inventories that describe the same manifest and the same logical state for every version, and is symmetric.", "quantifier": "all pairs of inventories", "why_tests_cant": "Completeness over all pairs; the interesting pairs differ in one entry.", "anchors": ["pkg/ocfl/inventorybase.go:isEqual", "pkg/ocfl/inventorytypes.go:EqualState", "pkg/ocfl/inventorytypes.go:EqualMeta", "pkg/ocfl/inventory.go:InventoryIsEqual"]}
{"id": "C27", "title": "Different logical states are told apart", "statement": "Comparing a version recorded in the root inventory with the same version in a version inventory (E066) reports a difference whenever some logical path has different content in the two.", "quantifier": "all pairs of states", "why_tests_cant": "All pairs of states.", "anchors": ["pkg/ocfl/inventorytypes.go:EqualState", "pkg/ocfl/objectbase.go:checkFilesAndVersions"]}
{"id": "C28", "title": "Distinct identifiers get distinct storage paths (hash-and-id layout)", "statement": "With the 0003 layout two different object identifiers are never mapped to the same storage path (assuming the digest function separates identifiers longer than the limit).", "quantifier": "all pairs of identifiers, all layout parameters", "why_tests_cant": "Injectivity over all strings.", "anchors": ["pkg/extension/0003-hash-and-id-n-tuple-storage-layout.go:escape", "pkg/extension/0003-hash-and-id-n-tuple-storage-layout.go:BuildStorageRootPath"]}
{"id": "C29", "title": "Distinct identifiers get distinct storage paths (hashed layout)", "statement": "With the 0004 layout two identifiers with different digests are never mapped to the same storage path, for every tuple size and number that fits the digest, with and without short object roots.", "quantifier": "all pairs of digests, all layout parameters", "why_tests_cant": "Injectivity over all strings and parameters.", "anchors": ["pkg/extension/0004-hashed-n-tuple-storage-layout.go:BuildStorageRootPath"]}
{"id": "C30", "title": "Objects are never nested (layouts 0003 and 0004)", "statement": "With the 0003 and 0004 layouts no object's storage path is a directory prefix of another object's storage path, and every path element is a plain name: non-empty, without slash, not '.' or '..'.", "quantifier": "all pairs of identifiers, all layout parameters", "why_tests_cant": "Relation between every two identifiers.", "anchors": ["pkg/extension/0003-hash-and-id-n-tuple-storage-layout.go:BuildStorageRootPath", "pkg/extension/0004-hashed-n-tuple-storage-layout.go:BuildStorageRootPath"]}
{"id": "C31", "title": "Objects are never nested (other layouts)", "statement": "With the flat-direct, flat-omit-prefix, pairtree and direct-clean layouts no object's storage path is a directory prefix of (or equal to) the storage path of an object with a different identifier.", "quantifier": "all pairs of identifiers, all layout parameters", "why_tests_cant": "Relation between every two identifiers.", "anchors": ["pkg/extension/0002-flat-direct-storage-layout.go:BuildStorageRootPath", "pkg/extension/0006-flat-omit-prefix-storage-layout.go:BuildStorageRootPath", "pkg/extension/NNNN-pairtree-storage-layout.go:BuildStorageRootPath", "pkg/extension/NNNN-direct-clean-path-layout.go:build"]}
{"id": "C32", "title": "N-tuple-omit-prefix layout follows its definition and never crashes", "statement": "With the 0007 layout, for every identifier containing the delimiter and every positive tuple size and tuple count, the path consists of the requested number of tuples cut from the padded (and optionally reversed) identifier part followed by that part, and computing it never crashes.", "quantifier": "all identifiers, all configurations", "why_tests_cant": "All configurations, including unusual padding values and short ids.", "anchors": ["pkg/extension/0007-n-tuple-omit-prefix-storage-layout.go:BuildStorageRootPath", "pkg/extension/0007-n-tuple-omit-prefix-storage-layout.go:reverse"]}
{"id": "C33", "title": "Storage layout parameters survive a reload", "statement": "Creating a storage root with a layout extension and opening it again maps every identifier to the same storage path as before.", "quantifier": "all layout extensions, all parameter values, all identifiers", "why_tests_cant": "All parameter values.", "anchors": ["pkg/extension/0003-hash-and-id-n-tuple-storage-layout.go:WriteConfig", "pkg/extension/0004-hashed-n-tuple-storage-layout.go:WriteConfig", "pkg/extension/0006-flat-omit-prefix-storage-layout.go:WriteConfig", "pkg/extension/0007-n-tuple-omit-prefix-storage-layout.go:WriteConfig", "pkg/extension/NNNN-pairtree-storage-layout.go:WriteConfig", "pkg/extension/NNNN-direct-clean-path-layout.go:WriteConfig", "pkg/ocfl/storagerootbase.go:Init", "pkg/ocfl/storagerootbase.go:Load"]}
{"id": "C34", "title": "Direct-clean encoding is reversible in UTF mode", "statement": "With utfEncode on and no length limit exceeded, the cleaned path determines the sequence of non-empty path elements of the original: two paths with different element sequences never get the same cleaned path.", "quantifier": "all Unicode strings", "why_tests_cant": "Injectivity over all strings; the escape of '=' interacts with the other rules.", "anchors": ["pkg/extension/NNNN-direct-clean-path-layout.go:build", "pkg/extension/NNNN-direct-clean-path-layout.go:encodeUTFCode"]}
{"id": "C35", "title": "Direct-clean output is safe", "statement": "Every path produced by the direct-clean layout has no empty, '.' or '..' element and no leading '~', contains none of the characters on its forbidden list, respects the maximal element and path length, and falls back to a digest otherwise - for every configuration.", "quantifier": "all Unicode strings, all configurations", "why_tests_cant": "Path traversal safety over all strings and configurations.", "anchors": ["pkg/extension/NNNN-direct-clean-path-layout.go:build", "pkg/extension/NNNN-direct-clean-path-layout.go:fallback"]}
{"id": "C36", "title": "Concurrent path mapping is independent", "statement": "Paths computed concurrently by several goroutines with one direct-clean extension equal the paths computed sequentially.", "quantifier": "all interleavings of any number of concurrent calls", "why_tests_cant": "Schedules cannot be enumerated by tests.", "anchors": ["pkg/extension/NNNN-direct-clean-path-layout.go:fallback"]}
{"id": "C37", "title": "Extension exclusion keeps exactly one of a group", "statement": "After the extension manager is finalised, of the extensions named in an exclusion group exactly the one named earliest in the group remains active (if any was configured) and every extension not named in the group stays active; sorting neither adds nor drops extensions.", "quantifier": "all extension lists, all exclusion groups, any sorting algorithm for equal elements", "why_tests_cant": "All lists and groups; the sort is unstable.", "anchors": ["pkg/extension/NNNN-gocfl-extension-manager.go:excludeExtensions", "pkg/extension/NNNN-gocfl-extension-manager.go:sortExtensions", "pkg/extension/NNNN-gocfl-extension-manager.go:organize"]}
{"id": "C38", "title": "Area paths round-trip", "statement": "For an area mapped to a sub path, extracting in that area the logical path under which a file was added gives back the original relative path, and a file added in one area is not extracted when another area is requested.", "quantifier": "all area configurations, all clean relative paths", "why_tests_cant": "Area prefixes of one another and all path strings.", "anchors": ["pkg/extension/NNNN-content-subpath.go:BuildObjectStatePath", "pkg/extension/NNNN-content-subpath.go:BuildObjectExtractPath"]}
{"id": "C39", "title": "Extraction is complete and exact", "statement": "A successful extraction of a version for an area writes, for every logical path of that area, exactly the stored content with the recorded digest and nothing else; the verdict does not depend on map order; content not matching its digest makes the extraction fail.", "quantifier": "all inventories, all storages, all areas, all iteration orders", "why_tests_cant": "All states and iteration orders.", "anchors": ["pkg/ocfl/objectbase.go:Extract", "pkg/ocfl/inventorybase.go:IterateStateFiles", "pkg/extension/NNNN-content-subpath.go:BuildObjectExtractPath"]}
{"id": "C40", "title": "Every object in a storage root is found once", "statement": "Listing the object folders of a storage root returns each folder that holds an object declaration exactly once and nothing inside an object, whatever the directory tree looks like as long as intermediate directories hold no files.", "quantifier": "all directory trees", "why_tests_cant": "All tree shapes.", "anchors": ["pkg/ocfl/storagerootbase.go:GetObjectFolders", "pkg/ocfl/storagerootbase.go:GetFolders"]}
{"id": "C41", "title": "Version declarations are recognised exactly", "statement": "A directory is accepted as storage root or object of version x.y exactly if it contains one file named '0=<type>_x.y' with matching content; no other file name is taken for a declaration.", "quantifier": "all directory listings and contents", "why_tests_cant": "All file names.", "anchors": ["pkg/ocfl/helper.go:getVersion", "pkg/ocfl/helper.go:validVersion"]}
{"id": "C42", "title": "Creating an object never destroys an existing one", "statement": "Creating an object for an identifier whose storage directory already holds anything fails and leaves the storage unchanged; creating a storage root in a non-empty directory fails and leaves it unchanged; distinct identifiers whose mapping fails are not silently stored under a wrong path.", "quantifier": "all storages, all identifiers", "why_tests_cant": "Frame property over all storages.", "anchors": ["pkg/ocfl/storagerootbase.go:CreateObject", "pkg/ocfl/objectbase.go:Init", "pkg/ocfl/storagerootbase.go:Init", "pkg/extension/NNNN-gocfl-extension-manager.go:BuildStorageRootPath"]}
{"id": "C43", "title": "No validation finding is lost in the report", "statement": "The final report (after removing duplicates) contains a finding if and only if it was recorded during validation, whatever the sort does, and contains no finding twice; the report says 'no errors' only if no error-class finding was recorded.", "quantifier": "all lists of findings, all orders the sort may produce", "why_tests_cant": "The comparison used is not a consistent order; all lists must be covered.", "anchors": ["pkg/ocfl/validationerror.go:Compact", "pkg/ocfl/validationerror.go:validationSort", "gocfl/cmd/helper.go:showStatus"]}
{"id": "C44", "title": "Sorted insertion keeps the index sorted", "statement": "Inserting into a sorted list through binary search gives a sorted list with exactly one more occurrence of the inserted element, so membership tests by binary search stay correct.", "quantifier": "all sorted lists, all elements", "why_tests_cant": "All lists.", "anchors": ["pkg/ocfl/helper.go:sliceInsertSorted", "pkg/ocfl/helper.go:sliceInsertAt", "pkg/ocfl/inventorybase.go:checkFixity"]}
{"id": "C45", "title": "Clean paths are bounded and well-formed", "statement": "A path accepted by the path cleaner has no element longer than the limit, is not longer than the limit, has no empty elements, contains no forbidden character, and cleaning it again changes nothing; no element is '.' or '..'.", "quantifier": "all strings, all limits", "why_tests_cant": "All strings.", "anchors": ["pkg/ocfl/helper.go:CleanPath", "pkg/ocfl/helper.go:FixFilename"]}
{"id": "C46", "title": "Automatic follow-up versions terminate", "statement": "Ending an update with extensions that request follow-up versions always terminates, and each extension triggers at most one follow-up version per object handle.", "quantifier": "all sets of extensions, all request patterns satisfying the extensions' own done flag", "why_tests_cant": "Termination for all request patterns.", "anchors": ["pkg/ocfl/objectbase.go:EndUpdate", "pkg/extension/NNNN-gocfl-extension-manager.go:NeedNewVersion", "pkg/extension/NNNN-migration.go:NeedNewVersion", "pkg/extension/NNNN-migration.go:DoNewVersion"]}
{"id": "C47", "title": "Stream processing delivers the whole stream to every extension", "statement": "When content is streamed to several extensions every extension that reads to the end receives exactly the bytes of the content, in order, an extension that stops reading early or fails never blocks the others or the ingest, and its error is reported.", "quantifier": "all schedules, all chunkings, all numbers of extensions", "why_tests_cant": "Schedules and chunk sizes.", "anchors": ["pkg/extension/NNNN-gocfl-extension-manager.go:StreamObject", "pkg/ocfl/objectbase.go:addReader"]}
{"id": "C48", "title": "The published inventory always describes the stored content", "statement": "Create an object and update it in any number of sessions, each of which ends with Close and may be interrupted by a crash after any write or in the middle of one. Whenever the root inventory and its digest file are accepted by the loader, every content path in the manifest is stored, with content of the recorded digest.", "quantifier": "all inventories, all call histories including extension hooks, all numbers of sessions, all crash points, all hash functions and JSON encodings with the stated laws", "why_tests_cant": "Crash points inside writes across several sessions cannot be enumerated by tests.", "anchors": ["pkg/ocfl/objectbase.go:addReader", "pkg/ocfl/objectbase.go:EndUpdate", "pkg/ocfl/objectbase.go:Close", "pkg/ocfl/objectbase.go:LoadInventory", "pkg/ocfl/objectbase.go:StoreInventory"]}
{"id": "C49", "title": "Objects that satisfy the rules are accepted", "statement": "An object whose inventories follow the rules (numbered versions, head, states and manifest with the same digests, proper paths), whose version folders hold an inventory that agrees with the root inventory and a correct digest file, whose manifests and fixity blocks tell the truth about the stored files, and in which nothing else is stored, is validated to the end without a panic and with no finding other than warnings.", "quantifier": "all objects, all hash functions and inventory encodings, all map iteration orders", "why_tests_cant": "The absence of false alarms is a statement about all correct objects; a test checks a handful of fixtures.", "anchors": ["pkg/ocfl/objectbase.go:Check", "pkg/ocfl/objectbase.go:checkFilesAndVersions", "pkg/ocfl/inventorybase.go:Finalize", "pkg/ocfl/objectbase.go:loadInventory"]}
{"id": "C50", "title": "Objects written by complete sessions are valid", "statement": "Create an object and update it in any number of sessions, where every session opens the stored object, makes updates that are each started, change something and are ended, and closes the handle, all without error, and new content goes to unused clean paths. Then validating the stored object comes to an end without a panic and reports nothing but warnings.", "quantifier": "all inventories, all call histories including echo deletion, failing calls and versions made by extension hooks, all numbers of updates and sessions, all map orders, all hash functions and encodings with the stated laws", "why_tests_cant": "Writer and validator are developed side by side; that they agree on all histories is beyond any set of fixtures.", "anchors": ["pkg/ocfl/objectbase.go:StartUpdate", "pkg/ocfl/objectbase.go:AddFile", "pkg/ocfl/objectbase.go:EndUpdate", "pkg/ocfl/objectbase.go:Close", "pkg/ocfl/objectbase.go:Check", "pkg/ocfl/objectbase.go:checkFilesAndVersions", "pkg/ocfl/inventorybase.go:Finalize"]}
{"id": "C51", "title": "A stored inventory is read back unchanged", "statement": "Writing an inventory as JSON and reading the text again gives the same inventory to the loader and to the validator, whatever characters its strings contain; no strict prefix of the written text is accepted; so what is proved about stored objects for an abstract encoding holds for the JSON text that is really written.", "quantifier": "all inventories, all strings, all places where the text is cut, all map iteration orders", "why_tests_cant": "Escaping, invalid bytes and truncation interact over all strings; a test writes a few friendly names.", "anchors": ["pkg/ocfl/inventorytypes.go:MarshalJSON", "pkg/ocfl/objectbase.go:StoreInventory", "pkg/ocfl/objectbase.go:loadInventory", "pkg/ocfl/inventorytypes.go:UnmarshalJSON", "pkg/ocfl/inventorybase.go:Finalize"]}
{"id": "C52", "title": "Parts of an inventory with the wrong JSON type are reported", "statement": "An object whose root inventory, or the inventory of one of its versions, has a part of another JSON type than the specification demands (identifier, type, digest algorithm, head, manifest, versions, creation time, message, user, state, fixity, content directory), or lacks a required part, is not accepted; the report has the code of that part.", "quantifier": "all JSON texts, all objects around them, all map iteration orders", "why_tests_cant": "The decoder ignores case, keeps going after type errors and records them in three different ways; all combinations cannot be tried.", "anchors": ["pkg/ocfl/objectbase.go:loadInventory", "pkg/ocfl/inventorytypes.go:UnmarshalJSON", "pkg/ocfl/inventorybase.go:Finalize", "pkg/ocfl/inventorybase.go:checkVersions", "pkg/ocfl/objectbase.go:Check"]}
{"id": "C53", "title": "An accepted object keeps what its inventory promises", "statement": "If the validator reports nothing but warnings, then the root inventory satisfies the rules for inventories, it and every version inventory that is stored carry the right digest and agree with each other, everything that is recorded in a manifest or fixity block is stored with the recorded digest, and every file of every version can be retrieved.", "quantifier": "all objects, all hash functions and inventory encodings, all map iteration orders", "why_tests_cant": "What follows from a clean report is a statement about all objects, also damaged ones; a test checks that some chosen damage is found.", "anchors": ["pkg/ocfl/objectbase.go:Check", "pkg/ocfl/objectbase.go:checkFilesAndVersions", "pkg/ocfl/inventorybase.go:Finalize", "pkg/ocfl/objectbase.go:loadInventory"]}
{"id": "C54", "title": "Every stored file is accounted for in an accepted object", "statement": "If the validator reports nothing but warnings, then every file stored in the object is an inventory, a digest file or a declaration in the right place, lies in the folders for logs or extensions, or lies in the content directory of a version and is listed with its digest in the root manifest and the manifests of all versions from that one on; other files in version folders bring a warning.", "quantifier": "all objects, all file names, all map iteration orders", "why_tests_cant": "Surplus files can have any name in any place; a test plants a few.", "anchors": ["pkg/ocfl/objectbase.go:Check", "pkg/ocfl/objectbase.go:checkFilesAndVersions", "pkg/ocfl/objectbase.go:checkVersionFolder"]}
{"id": "C55", "title": "A created object gives the ingested folders back", "statement": "Creating an object from folders, one for each area, succeeds if the folders can be read, and after loading the object again the extraction of the newest version of an area gives the same files with the same bytes and no others, with or without de-duplication, however deep the folders are.", "quantifier": "all folder trees, all areas and area configurations, all hash functions and encodings with the stated laws, all map iteration orders", "why_tests_cant": "Path mapping, de-duplication, storing, loading and extraction work together over all trees; a test ingests one small folder.", "anchors": ["gocfl/cmd/helper.go:addObjectByPath", "pkg/ocfl/objectbase.go:AddFolder", "pkg/ocfl/objectbase.go:AddFile", "pkg/ocfl/objectbase.go:EndUpdate", "pkg/ocfl/objectbase.go:Close", "pkg/ocfl/objectbase.go:Extract", "pkg/extension/NNNN-content-subpath.go:BuildObjectExtractPath"]}
{"id": "C56", "title": "An update adds to what is there, or replaces it with echo deletion", "statement": "Updating a stored object with folders succeeds, and afterwards the extraction of an area gives the files of its folder together with the files it had before that are not in the folder; with echo deletion the latter are gone.", "quantifier": "all objects made by complete sessions, all folder trees, all areas, all hash functions and encodings with the stated laws, all map iteration orders", "why_tests_cant": "The result depends on the whole earlier content of the object; a test updates one object once.", "anchors": ["gocfl/cmd/helper.go:addObjectByPath", "pkg/ocfl/objectbase.go:AddFolder", "pkg/ocfl/objectbase.go:AddFile", "pkg/ocfl/objectbase.go:echoDelete", "pkg/ocfl/objectbase.go:Extract", "pkg/ocfl/inventorybase.go:AddFile", "pkg/ocfl/inventorybase.go:AlreadyExists"]}
{"id": "C57", "title": "Every version stays available as it was", "statement": "Whatever complete sessions do to an object with unpadded version names, the extraction of every version that was there before gives the same result as before, for every area and every target; after a history of ingest requests version k is extracted to what the area held after request k, and there are no other versions.", "quantifier": "all objects made by complete sessions, all call histories including extension hooks, all versions, areas and targets, all map iteration orders", "why_tests_cant": "The claim is about all versions after all later histories.", "anchors": ["pkg/ocfl/objectbase.go:Extract", "pkg/ocfl/objectbase.go:StartUpdate", "pkg/ocfl/objectbase.go:EndUpdate", "pkg/ocfl/objectbase.go:Close", "pkg/ocfl/inventorybase.go:IterateStateFiles"]}
{"id": "C58", "title": "Ingested objects are valid", "statement": "An object that was created and updated by any number of successful ingest requests is accepted by the validator with nothing but warnings, provided its version states hold no name both as a file and as a directory; this also holds for the JSON text that is really written and read.", "quantifier": "all numbers of requests, all folder trees, all digests and encodings with the stated laws, all map iteration orders", "why_tests_cant": "The writer and the validator are separate code; that they agree on all objects cannot be shown by validating a few.", "anchors": ["gocfl/cmd/helper.go:addObjectByPath", "pkg/ocfl/objectbase.go:AddFolder", "pkg/ocfl/objectbase.go:EndUpdate", "pkg/ocfl/objectbase.go:Close", "pkg/ocfl/objectbase.go:Check"]}
{"id": "C59", "title": "The objects of a storage root do not disturb each other", "statement": "After any requests for any identifiers in any order, the object of an identifier is found by its identifier, carries it, has one version per request made for it and gives back what each of these requests stored; an identifier without request has no object; no other file of the storage root changes. Sessions of different objects that run interleaved, or are interrupted at any point, leave every object as its own session alone would.", "quantifier": "all request histories, all interleavings and interruption points, all folder trees, all identifiers for which the layout gives folders that are not nested (shown for layouts 0003 and 0004), all map iteration orders", "why_tests_cant": "The number of objects, orders and interleavings is unbounded; a test works on one or two objects one after the other.", "anchors": ["gocfl/cmd/helper.go:addObjectByPath", "pkg/ocfl/storagerootbase.go:LoadObjectByID", "pkg/ocfl/storagerootbase.go:CreateObject", "pkg/ocfl/storagerootbase.go:ObjectExists", "pkg/ocfl/objectbase.go:Close", "pkg/ocfl/objectbase.go:EndUpdate"]}
{"id": "C60", "title": "The metadata report of an object is exact", "statement": "The metadata report of an object has exactly the versions of the inventory and exactly the stored contents, each with all its content paths, with exactly the logical paths it has in every version, with fixity digests that are recorded for its first content path, and with what each extension reports for it; it fails only if an extension fails.", "quantifier": "all inventories, all call histories before, all extension results, all map iteration orders (a new order in every nested loop)", "why_tests_cant": "The report is joined from five maps over all versions, with Go's random map order; a test sees one inventory and one order.", "anchors": ["pkg/ocfl/objectbase.go:GetMetadata", "pkg/ocfl/fixity.go:Checksums", "pkg/ocfl/metadata.go", "pkg/extension/NNNN-gocfl-extension-manager.go:GetMetadata"]}
{"id": "C61", "title": "Side files of extensions are read back and stay", "statement": "What an extension stored with WriteJsonL for the current version is exactly what ReadJsonL returns for that version, for every compression and storage type; later calls, also failing or interrupted ones, do not change what is read for an old version.", "quantifier": "all texts, all compressions with the round-trip law, all storage configurations for which both functions mean the same file (the others are refuted), all inventories, all later call histories and interruption points", "why_tests_cant": "Writer and reader build the path in two different ways from five configuration values; a test uses one configuration.", "anchors": ["pkg/ocfl/helper.go:WriteJsonL", "pkg/ocfl/helper.go:ReadJsonL", "pkg/ocfl/inventorybase.go:BuildManifestNameVersion", "pkg/ocfl/objectbase.go:AddReader", "pkg/extension/NNNN-content-subpath.go:GetAreaPath", "pkg/extension/NNNN-gocfl-extension-manager.go:GetAreaPath"]}
{"id": "C62", "title": "Indexer metadata belongs to the content it was computed from", "statement": "For an object made by any number of sessions with the indexer, GetMetadata of a new handle succeeds; every digest in its answer is the digest of content for which the indexer returned exactly that result, no recorded result is missing, and each result of a streamed file is recorded under its content path.", "quantifier": "all numbers of sessions, all call sequences with and without hooks, including those of other extensions, all indexer functions, digests, encodings and line formats with the stated laws, all map iteration orders", "why_tests_cant": "Results travel through a buffer per version, a compressed side file and two joins over the manifest; a test indexes one object once.", "anchors": ["pkg/extension/NNNN-indexer.go:StreamObject", "pkg/extension/NNNN-indexer.go:UpdateObjectAfter", "pkg/extension/NNNN-indexer.go:GetMetadata", "pkg/ocfl/objectbase.go:addReader", "pkg/ocfl/helper.go:WriteJsonL", "pkg/ocfl/helper.go:ReadJsonL"]}
{"id": "C63", "title": "A migration converts exactly what was planned and loses nothing else", "statement": "After DoNewVersion of the migration extension the newest version is the previous one with each planned content converted: the converted file is at its target name with its data stored and in the manifest, the originals are kept, deleted or moved as the strategy says, contents whose conversion failed and all other files are unchanged, the side file has one line for each planned content with an error exactly if the conversion failed, and nothing is left to do.", "quantifier": "all inventories, all numbers of planned contents and of names per content, all conversion tools and name functions, all strategies mixed, all map iteration orders; contents that do not get in each other's way (the other cases are refuted)", "why_tests_cant": "The contents are processed in random map order and each step changes the maps that the next one reads; a test converts one file.", "anchors": ["pkg/extension/NNNN-migration.go:DoNewVersion", "pkg/subsystem/migration/helper.go:DoMigrate", "pkg/subsystem/migration/migrate.go:GetDestinationName", "pkg/ocfl/objectbase.go:AddReader", "pkg/ocfl/objectbase.go:DeleteFile", "pkg/ocfl/objectbase.go:RenameFile", "pkg/ocfl/objectbase.go:EndUpdate"]}
{"id": "C64", "title": "A recorded migration is not repeated", "statement": "For an object whose migration side files can be read, GetMetadata succeeds and gives the results of exactly the recorded lines; a new handle then plans exactly the stored contents of a known format that no line names as source, so that finished and failed conversions are not done again.", "quantifier": "all inventories, all numbers of versions and lines, all formats and tool tables, all map iteration orders; results that no two contents share (refuted otherwise)", "why_tests_cant": "The plan joins side files of all versions with two passes over the manifest and the report of the indexer; a test looks at one object after one migration.", "anchors": ["pkg/extension/NNNN-migration.go:GetMetadata", "pkg/extension/NNNN-migration.go:UpdateObjectAfter", "pkg/extension/NNNN-migration.go:alreadyMigrated", "pkg/ocfl/helper.go:ReadJsonL", "pkg/ocfl/objectbase.go:GetMetadata"]}
{"id": "C65", "title": "A whole storage root is valid exactly if all its parts are", "statement": "Validation of a storage root shows nothing but warnings exactly if the root declares one known version and every object in it declares one version, not later than that of the root, and is accepted on its own. If validation comes to its end, every finding of an object is shown with the folder of that object, objects that cannot be loaded are reported, and no error is blamed on an object in which it was not found.", "quantifier": "all directory trees of any depth and number of objects in which declarations can be told by their names, all file contents, digest functions, encodings and extension factories, all map iteration orders; the other cases are refuted", "why_tests_cant": "The verdict joins the listing of a tree, two ways to read declarations and the findings of any number of objects, of which each may stop the run; a test validates a fixture with one or two objects.", "anchors": ["gocfl/cmd/validate.go:validate", "pkg/ocfl/storagerootbase.go:Check", "pkg/ocfl/storagerootbase.go:CheckDirectory", "pkg/ocfl/storagerootbase.go:CheckObjects", "pkg/ocfl/storagerootbase.go:CheckObjectByFolder", "pkg/ocfl/storagerootbase.go:LoadObjectByFolder", "pkg/ocfl/storageroot.go:LoadStorageRoot"]}
{"id": "C66", "title": "Unknown extensions are reported and do no harm", "statement": "CreateExtensions takes over the extensions that can be created in the order of their folders, without initial and the manager, and gives exactly one warning for each one that cannot be created and for each one that is not registered.", "quantifier": "all extensions folders as the program writes them, with any number of known, unknown and unreadable extensions, all factories; loading of a storage root and foreign extensions folders are refuted", "why_tests_cant": "Extensions of later programs do not exist yet; a test knows only the present ones.", "anchors": ["pkg/ocfl/extensionFactory.go:CreateExtensions", "pkg/extension/initial.go:SetExtension", "pkg/extension/NNNN-gocfl-extension-manager.go:Add", "pkg/ocfl/storageroot.go:LoadStorageRoot"]}
{"id": "C67", "title": "A storage root filled by requests is valid as a whole", "statement": "After Init and any number of successful add and update requests for any number of identifiers, a walk over the storage root finds exactly the objects that were created, each in the folder of its identifier, and validation of the whole root comes to its end and shows nothing but warnings.", "quantifier": "all sequences of requests, all identifiers with folders apart from each other and from the folder of the extensions, all contents without path extensions in which no name is a file and a directory, all digest functions with hexadecimal results, all map iteration orders; identifiers whose folder is the extensions folder are refuted", "why_tests_cant": "Requests, layouts, the walk over the tree, declarations, extensions and the object checks have to agree for arbitrarily many objects; tests fill a root with one or two objects and validate an object alone.", "anchors": ["gocfl/cmd/add.go:doAdd", "gocfl/cmd/update.go:doUpdate", "gocfl/cmd/validate.go:validate", "pkg/ocfl/storagerootbase.go:Init", "pkg/ocfl/storagerootbase.go:CreateObject", "pkg/ocfl/storagerootbase.go:GetObjectFolders", "pkg/ocfl/storagerootbase.go:Check"]}
{"id": "C68", "title": "Extraction of a storage root gives back what was handed in", "statement": "After any sequence of requests, extraction of the storage root fills the folder of every created object with exactly the content that the requested version of this object had when it was handed in, and writes nothing else. Extraction of one object, named by its identifier or its folder, gives the content of the requested version and area. A version or an object that does not exist is an error and nothing is written, and a target that is in use is not touched.", "quantifier": "all sequences of requests for any number of identifiers with folders apart from each other and from the extensions folder, all versions, all contents, all map iteration orders; for the whole root every object must have the requested version, and the area is the default one (both refuted otherwise)", "why_tests_cant": "The content of every object at every version after every history would have to be compared; tests extract one object of a fixture.", "anchors": ["pkg/ocfl/storagerootbase.go:Extract", "pkg/ocfl/storagerootbase.go:LoadObjectByFolder", "pkg/ocfl/storagerootbase.go:LoadObjectByID", "pkg/ocfl/objectbase.go:Extract", "gocfl/cmd/extract.go:doExtract"]}
{"id": "C69", "title": "The metadata of a storage root covers every object and every file", "statement": "After any sequence of requests the metadata report of the storage root has one entry for every created object and no other. The entry has the identifier, the versions and the head of the object, and names in every version exactly the files that were handed in, under their paths and with the digests of their content.", "quantifier": "all sequences of requests for any number of identifiers, all versions and contents, all map iteration orders, all results of extensions; files for objects without path extensions; two objects with the same identifier are refuted", "why_tests_cant": "The report joins the inventories of arbitrarily many objects, and its map order is random; tests look at one report.", "anchors": ["pkg/ocfl/storagerootbase.go:ExtractMeta", "pkg/ocfl/objectbase.go:GetMetadata", "gocfl/cmd/extractmeta.go:doExtractMeta"]}
{"id": "C70", "title": "The descriptive metadata that was given last is reported", "statement": "With the metafile extension the text of the metadata source is stored when an update starts. A new handle on the object reports the metadata of the last finished update that was given some, in whatever version that was; updates without a source change nothing about it. Metadata kept in the folder of the extension stays as it is whatever handles without a source do, also if they fail or are interrupted.", "quantifier": "all histories of creations and updates with and without sources, all sources and texts, all map iteration orders, storage in an area, a path or the folder of the extension; updates that change something and configurations for which writer and reader mean the same file (refuted otherwise)", "why_tests_cant": "The reader searches all versions backwards with paths computed differently from the writer; tests write and read one version with one configuration.", "anchors": ["pkg/extension/NNNN-metafile.go:UpdateObjectBefore", "pkg/extension/NNNN-metafile.go:GetMetadata", "pkg/ocfl/helper.go:ReadFile", "pkg/ocfl/objectbase.go:StartUpdate"]}
{"id": "C71", "title": "A stored inventory is read as RFC 8259 says", "statement": "A text is read as JSON exactly if it is a JSON text by the grammar of RFC 8259, nested at most 10000 deep, and then its value is the one the RFC gives: numbers, escapes, surrogate pairs, white space. Two texts of the same inventory that differ in layout, escapes and the order of members are loaded as the same inventory, so an inventory written by other software is read correctly; any other text is refused.", "quantifier": "all texts, all values, all inventories; white space everywhere the grammar allows it, all escapes, any number of exchanges of members at any depth whose names differ also when case is ignored", "why_tests_cant": "The grammar has infinitely many texts for each value; the software itself writes only one of them, so its own round-trip tests never reach the others.", "anchors": ["pkg/ocfl/objectbase.go:loadInventory", "pkg/ocfl/inventorytypes.go:UnmarshalJSON"]}
{"id": "C72", "title": "Every stored file with a thumbnail function gets one thumbnail, kept and reported", "statement": "With the thumbnail extension an update leaves for every content of the manifest that can be read and has a thumbnail function one record: either the digest of the thumbnail that the function makes of the stored file, which is then stored in the folder of the new version and listed in the manifest, or an error if the function fails. No content is recorded twice, however many updates follow. The report of a new handle on the object has an entry for every record and no others, and every entry without error names the digest of a stored file with that digest. Kept in the folder of the extension, thumbnails change nothing else of the object.", "quantifier": "all histories of creations and updates with the extension, all contents, functions, indexer results, random numbers for which the hook does not panic, all map iteration orders; storage in an area, a path, or the folder of the extension; types in lower case (refuted otherwise)", "why_tests_cant": "Which files get a thumbnail depends on what earlier updates wrote into side files and on the merged metadata report; there are no tests of it, and one random number in four panics.", "anchors": ["pkg/extension/NNNN-thumbnail.go:UpdateObjectAfter", "pkg/extension/NNNN-thumbnail.go:storeThumbnail", "pkg/extension/NNNN-thumbnail.go:DoThumbnail", "pkg/extension/NNNN-thumbnail.go:GetMetadata", "pkg/subsystem/thumbnail/thumbnail.go:GetFunctionByPronom"]}
{"id": "C73", "title": "The METS document lists every file of the version and is stored with the PREMIS document it refers to", "statement": "With the mets extension an update makes a METS document that has exactly one entry for every logical path of the working version that is not metadata about the content, with the digest of that path, its group, the logical path and the content paths under that digest. Metadata files are referred to with their digest, the primary metadata under its own heading. The PREMIS document has one object for every entry, under the same identifier, a packing event for every version that has the content, and an event for every migration with the identifiers of source and result. Both documents are stored and listed in the manifest under their digests, and the digest that METS gives for PREMIS is that of the stored text.", "quantifier": "all objects made by histories of sessions and all working states of a session, all results of other extensions, identifiers and texts of documents, all map iteration orders; content folder called content, areas with different paths of one element (refuted otherwise), storage in an area or a path", "why_tests_cant": "The document is computed from the merged report of all extensions by nested loops over Go maps, and there is no test of the extension; a file that is left out shows only when somebody compares the document with the object.", "anchors": ["pkg/extension/NNNN-mets.go:UpdateObjectAfter", "pkg/extension/NNNN-mets.go:newMDSec", "pkg/extension/NNNN-mets.go:checksumTypeToMets"]}
{"id": "C74", "title": "Metadata of the source file system is kept with the version and reported for the right content", "statement": "With the filesystem extension the metadata of every file that is stored from a file system is recorded with the logical path of the file and the version, and stays recorded until the update ends. If a name for folder files is configured, every folder is in the version as an empty file with this name, and its metadata is recorded with the path of that file. After any number of updates, with and without the extension, a new handle reports without error: under each digest and version are exactly the records of that version for the paths which the version gives to that digest.", "quantifier": "all objects made by histories of sessions with and without the extension, all files and folders, metadata, other calls and calls of other extensions, all map iteration orders; files with new content, folders with mapped paths, paths not given to other files in the session (refuted otherwise)", "why_tests_cant": "Recording, packing and reading of the records lie in different hooks and sessions, and the records are joined to the digests by path, version by version; there is no test of the extension, and a record that is missing or under the wrong digest shows only when somebody compares all of them with the source.", "anchors": ["pkg/extension/NNNN-filesystem.go:AddFileAfter", "pkg/extension/NNNN-filesystem.go:UpdateObjectAfter", "pkg/extension/NNNN-filesystem.go:GetMetadata", "pkg/ocfl/objectbase.go:AddFile"]}
{"id": "C75", "title": "Handles open at the same time do not harm what is published", "statement": "Any number of handles may be open on one object, in one process or several, and their effects may happen in any order and stop anywhere. The files of the versions that existed when the handles were opened do not change. As long as no handle is closed, the published inventory does not change either. If one handle is closed after complete updates, the object is loaded with its inventory and with all its content.", "quantifier": "all numbers of handles, all calls on them, all interleavings of their effects, all crash points; for the last part the other handles are not closed and store no content under the same paths (refuted otherwise)", "why_tests_cant": "Interleavings of file writes of several processes cannot be steered by a test, and what is lost shows only when both results are compared; the project has no locks and no test with two handles.", "anchors": ["pkg/ocfl/objectbase.go:StartUpdate", "pkg/ocfl/objectbase.go:EndUpdate", "pkg/ocfl/objectbase.go:Close", "pkg/ocfl/objectbase.go:AddFile"]}
{"id": "C76", "title": "A request can be made again after attempts that failed or were interrupted", "statement": "An update of an object fails because files of the source cannot be opened, or the machine stops in the middle of it, any number of times. When the same request is then made again and nothing stands in its way, it succeeds, and the object has exactly the files that it would have without the attempts: nothing of the attempts is left, and the areas hold what the folders hold.", "quantifier": "all objects that were published, all folders, all sets of files that cannot be opened in an attempt, all crash points of all attempts, any number of attempts, all map orders inside the calls; the attempts were made for the same folders in the same order (refuted otherwise), and the object existed before (refuted otherwise)", "why_tests_cant": "The moments at which an attempt can stop and the combinations of attempts are unbounded; a leftover shows only in a comparison of all files with a run without attempts, which no test of the project makes.", "anchors": ["gocfl/cmd/helper.go:addObjectByPath", "pkg/ocfl/objectbase.go:AddFolder", "pkg/ocfl/objectbase.go:AddFile", "pkg/ocfl/objectbase.go:EndUpdate", "pkg/ocfl/objectbase.go:Close"]}
{"id": "C77", "title": "The report about an object names the rules that were found broken", "statement": "After the validation of an object the report shows a code exactly if the validator recorded a finding with this code, and it announces that there are no errors exactly if nothing but warnings was recorded. So if no errors are announced, the files of all versions are there with their digests.", "quantifier": "all objects (all sets of files, also damaged ones), all orders of the maps, all results of the sort, all texts; objects of version 1.1 for the codes, all versions for the announcement (codes of other versions refuted)", "why_tests_cant": "That every finding of every possible object has an entry in the table of its version needs all paths through the validator; a test sees the codes of its own objects only.", "anchors": ["pkg/ocfl/validationerror.go:GetValidationError", "pkg/ocfl/objectbase.go:addValidationError", "pkg/ocfl/inventorybase.go:addValidationError", "gocfl/cmd/helper.go:showStatus", "gocfl/cmd/validate.go:validate"]}
{"id": "C78", "title": "What the validator accepts can be loaded and extracted", "statement": "If the validator reports nothing but warnings about an object of any origin, the object can be loaded without findings, and the extraction of every version succeeds: every file of the version is written with content of its recorded digest and nothing else is touched.", "quantifier": "all objects, all hash functions and inventory encodings, all versions, areas and targets that take the names, all map iteration orders; digests in lower case with a content path (both refuted otherwise), and one digest for each path (otherwise the content depends on the map order, refuted)", "why_tests_cant": "The two halves of the program read the same inventory by different rules; a test would have to try every object that the validator lets through.", "anchors": ["pkg/ocfl/objectbase.go:Check", "pkg/ocfl/objectbase.go:LoadInventory", "pkg/ocfl/objectbase.go:Extract", "pkg/ocfl/inventorybase.go:IterateStateFiles", "pkg/ocfl/inventorybase.go:checkManifest"]}
{"id": "C79", "title": "Objects of any origin keep their versions when they are updated", "statement": "If the validator reports nothing but warnings about an object of any origin, then after any number of updates, complete or interrupted, every version that the object had is extracted exactly as before: the same files, bytes and errors; after a completed update the object can be opened again and its inventory contains all old versions unchanged.", "quantifier": "all objects, all hash functions and inventory encodings, all sequences of handles with any calls and settings, all crash points, all versions, areas, targets and map orders; every digest has a content path and new content gets clean relative paths (both refuted otherwise)", "why_tests_cant": "The guarantee for objects made by other programs rests on the checks of the validator and on every later write; no finite set of foreign objects, updates and crash points shows it.", "anchors": ["pkg/ocfl/objectbase.go:Check", "pkg/ocfl/objectbase.go:LoadInventory", "pkg/ocfl/objectbase.go:StartUpdate", "pkg/ocfl/objectbase.go:AddFile", "pkg/ocfl/objectbase.go:Close", "pkg/ocfl/objectbase.go:Extract", "pkg/ocfl/inventorybase.go:NewVersion"]}
{"id": "C80", "title": "The display server delivers the content that was asked for", "statement": "A download from the display server delivers the stored content with the requested digest from the object with the requested identifier, and a download of an extension file delivers a file of that extension, whatever was requested before or is requested at the same time.", "quantifier": "all storage roots, layouts, hash functions and inventory encodings, all sequences of requests, all interleavings of concurrent requests, all identifiers, digests and paths, all map orders", "why_tests_cant": "All requests share one loaded object and its metadata without a lock; which content is delivered depends on the history and on the interleaving, which tests do not enumerate.", "anchors": ["gocfl/cmd/display/server.go:download", "gocfl/cmd/display/server.go:downloadExtFile", "gocfl/cmd/display/server.go:loadObjectID", "gocfl/cmd/display/server.go:loadObjectPath", "gocfl/cmd/display/server.go:displayObject", "pkg/ocfl/storagerootbase.go:LoadObjectByID", "pkg/ocfl/storagerootbase.go:LoadObjectByFolder", "pkg/ocfl/objectbase.go:GetMetadata"]}
{"id": "C81", "title": "Complete updates of an object of any origin give a valid object", "statement": "An object that the validator accepts, whatever program has made it, is accepted again after any number of complete update sessions, each on the inventory that the loader returns, and the next session can always begin.", "quantifier": "all hash functions with hexadecimal digests, all inventory encodings that read back what is written, all objects and file trees, all numbers of sessions, all sequences of calls, all settings, all map orders", "why_tests_cant": "What the update writes depends on inventories written by other programs, with their own spelling of digests, versions and fixity blocks; tests only update objects made by this program.", "anchors": ["pkg/ocfl/objectbase.go:StartUpdate", "pkg/ocfl/objectbase.go:EndUpdate", "pkg/ocfl/objectbase.go:Close", "pkg/ocfl/objectbase.go:LoadInventory", "pkg/ocfl/objectbase.go:Check", "pkg/ocfl/inventorybase.go:NewVersion", "pkg/ocfl/inventorybase.go:AddFile", "pkg/ocfl/inventorybase.go:GetDuplicates"]}
{"id": "C82", "title": "A failed read of the inventory does no harm", "statement": "If the inventory of an object cannot be read at the moment (the driver reports another error than a missing file), loading the object reports the failure, or at least no later call on the handle changes a file of the object.", "quantifier": "all storage contents, all drivers that fail on the inventory, all sequences of calls with hooks, all stop points, all path settings, all hash functions without an algorithm of empty name, all map orders", "why_tests_cant": "The fault must hit one read of an otherwise sound object, and the harm depends on the calls that follow; tests run on healthy file systems.", "anchors": ["pkg/ocfl/objectbase.go:LoadInventory", "pkg/ocfl/objectbase.go:Load", "pkg/ocfl/inventorybase.go:newInventoryBase", "pkg/ocfl/objectbase.go:StartUpdate", "pkg/ocfl/objectbase.go:addReader", "pkg/ocfl/objectbase.go:AddFile", "pkg/ocfl/objectbase.go:StoreInventory", "pkg/ocfl/storagerootbase.go:LoadObjectByFolder"]}
{"id": "C83", "title": "The validator does not accept an object while one of its inventories cannot be read", "statement": "If the driver cannot read the inventory of an object with at least one version folder, the inventory of one of its versions, or a digest file of one of them, validation ends with an error or a finding that is more than a warning, even if the failure is over when the content is read; failures on other files when inventories are loaded do not change the verdict.", "quantifier": "all storage contents, all drivers that fail on any of these files, all inventories, all hash functions without an algorithm of empty name, all map orders", "why_tests_cant": "A failed read gives an empty inventory without a finding of its own; that it is noticed at all depends on checks that were made for other purposes. Tests have no failing file systems.", "anchors": ["pkg/ocfl/objectbase.go:LoadInventory", "pkg/ocfl/objectbase.go:Check", "pkg/ocfl/objectbase.go:getVersionInventories", "pkg/ocfl/objectbase.go:createContentManifest", "pkg/ocfl/objectbase.go:getAllDigests", "pkg/ocfl/objectbase.go:checkFilesAndVersions", "pkg/ocfl/inventorybase.go:newInventoryBase"]}
{"id": "C84", "title": "The statistics of an object and of a storage root show what the inventories say", "statement": "For a loaded object, the statistics name its head, its fixity algorithms and the numbers of its content paths and digests; they have one section for each version with user, date, message and exactly the logical files of its state, each followed by the content paths of its digest; the folder of the object is shown as its path. Every kind of information that is asked for by name is shown. The statistics of a storage root have all its objects in the order of the folders.", "quantifier": "all inventories, all selections of information, all map orders, all storage roots with any objects that can or cannot be loaded, all option strings", "why_tests_cant": "The output is made by nested loops over Go maps under interacting conditions, so it differs from run to run; a test compares one output for one selection.", "anchors": ["pkg/ocfl/objectbase.go:Stat", "pkg/ocfl/storagerootbase.go:Stat", "pkg/ocfl/inventorybase.go:GetVersions", "pkg/ocfl/inventorybase.go:GetFixity", "gocfl/cmd/stat.go:doStat", "gocfl/cmd/stat.go:doStatConf"]}
