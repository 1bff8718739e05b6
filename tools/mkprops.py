#!/usr/bin/env python3
"""Writes properties.jsonl (one JSON object per property) from the table below."""
import json, os
I="pkg/ocfl/inventorybase.go"; O="pkg/ocfl/objectbase.go"; H="pkg/ocfl/helper.go"; S="pkg/ocfl/storagerootbase.go"
T="pkg/ocfl/inventorytypes.go"; M="pkg/extension/NNNN-gocfl-extension-manager.go"
E3="pkg/extension/0003-hash-and-id-n-tuple-storage-layout.go"; E4="pkg/extension/0004-hashed-n-tuple-storage-layout.go"
E6="pkg/extension/0006-flat-omit-prefix-storage-layout.go"; E7="pkg/extension/0007-n-tuple-omit-prefix-storage-layout.go"
PT="pkg/extension/NNNN-pairtree-storage-layout.go"; DC="pkg/extension/NNNN-direct-clean-path-layout.go"
CS="pkg/extension/NNNN-content-subpath.go"; V="pkg/ocfl/validationerror.go"; CMD="gocfl/cmd/helper.go"
P=[]
def p(title,statement,quantifier,why,*anchors):
    P.append(dict(id="C%02d"%(len(P)+1),title=title,statement=statement,quantifier=quantifier,why_tests_cant=why,anchors=list(anchors)))

p("Recorded versions are immutable",
  "Whatever sequence of calls is made on an object opened for update (adding data, adding with de-duplication, deleting, renaming, echo deletion, starting further versions), the logical state, message, user and date recorded for every version that existed before the sequence started are unchanged afterwards, except that calls without a new version may change the version that was the head when they ran.",
  "all inventories, all histories of update calls of any length, all map iteration orders",
  "A test runs a few histories; silent sharing of slices or maps between versions shows up only in particular interleavings of add/delete/rename/new version.",
  I+":NewVersion",I+":AddFile",I+":DeleteFile",I+":RenameFile",I+":CopyFile",H+":copyMapStringSlice")
p("Content addressing only grows",
  "No update call ever removes or reorders a content path already recorded for a digest: after any history the list of content paths recorded for each digest extends the earlier list.",
  "all inventories, all histories of update calls, all map iteration orders",
  "Losing one manifest entry on a rare branch makes old versions unreadable; a test sees only the branches it runs.",
  I+":AddFile",I+":CopyFile",I+":DeleteFile",I+":echoDelete")
p("Every logical file stays resolvable",
  "Starting from a freshly created object, after any history of update calls, every digest referenced by the state of any version has at least one content path recorded, so listing or extracting any version never fails for a missing or empty manifest entry.",
  "all histories from the empty object, every version, every digest",
  "Referential integrity over unbounded histories is an invariant; a test checks single histories.",
  I+":AddFile",I+":CopyFile",I+":IterateStateFiles",O+":addReader",O+":AddFile")
p("A new version starts as a copy of the previous one",
  "Starting an update on an object with a head version produces a new head whose logical state maps exactly the same logical paths to exactly the same digests as the previous head, and for an object without versions an empty state.",
  "all inventories with a well-formed head",
  "Must hold for every state, not only small fixtures.",
  I+":NewVersion",H+":copyMapStringSlice")
p("Version numbering is contiguous and the head is the newest version",
  "From a fresh object, after any number of started updates the recorded versions are exactly v1..vn and the head is vn; the validator accepts the numbering. For an object with zero-padded numbers the same holds with the padded form.",
  "all numbers of updates, unpadded and every padding width",
  "Overflow of the padding happens at 10, 100, 1000... updates and is never reached by a unit test.",
  I+":NewVersion",I+":checkVersions",I+":GetVersionStrings")
p("Deleting a file removes exactly that file",
  "After deleting a logical path from the working version the path is absent from the head state, every other logical path keeps its digest and its multiplicity, no digest key disappears from the head state, and the object counts as modified exactly when the path was present.",
  "all states, all paths", "Needs every state/path combination including paths sharing a digest.",
  I+":DeleteFile",O+":DeleteFile")
p("Renaming a file moves exactly that file",
  "After renaming a logical path that is present to a path that is absent, the new path has the digest the old path had, the old path is absent and all other paths are unchanged; renaming never makes two different contents share a logical path.",
  "all states, all source and destination paths",
  "The collision case (destination already present) needs a specific state that tests do not build.",
  I+":RenameFile",O+":RenameFile")
p("A file that was added is in the version",
  "After successfully adding content under a logical path in the working version, the head state maps that path to the digest of that content, whatever the earlier history of the path was (never seen, unchanged, changed, or deleted earlier) and whether or not de-duplication is on.",
  "all histories, all paths, all contents, both de-duplication settings",
  "The failing histories are multi-step (delete in one version, add the same content again later).",
  O+":AddFile",O+":AddData",O+":AddReader",I+":AddFile",I+":AlreadyExists",I+":IsUpdate",I+":CopyFile")
p("A logical path names one content per version",
  "In every version reachable by update calls a logical path is listed under at most one digest and at most once.",
  "all histories of update calls from a fresh object",
  "Depends on history: only some interleavings of update and de-duplication list a path twice.",
  I+":AddFile",I+":CopyFile",I+":RenameFile")
p("A content path stores one content",
  "In every reachable inventory a content path is recorded under at most one digest and at most once, so no stored content file is claimed to have two digests.",
  "all histories of update calls from a fresh object",
  "Needs repeated adds in one version or name mappings that collide.",
  I+":AddFile",I+":BuildManifestName",O+":addReader")
p("An update without changes writes nothing",
  "An update that only re-adds, with de-duplication, files whose content is already current leaves the stored object byte-for-byte unchanged: no file is created or rewritten in the object's directory apart from the empty extension folders.",
  "all objects, all lists of unchanged files, with and without de-duplication",
  "A frame property over the whole storage for all inputs.",
  O+":AddFile",O+":EndUpdate",O+":Close",I+":AlreadyExists",I+":Clean")
p("Objects with zero-padded version numbers can be updated",
  "Adding a file whose logical path already occurs in some version works the same for objects whose versions are numbered with zero padding as for unpadded ones.",
  "all padded inventories, all paths", "Fixtures use unpadded versions; the statement is about every padding.",
  I+":AlreadyExists",I+":IsUpdate",I+":NewVersion")
p("Fixity digests are recorded for every added file",
  "After adding content with a set of fixity algorithms, for each algorithm the recorded fixity block lists the new content path under the digest computed for it, lists it at most once there, and no entry recorded earlier for any algorithm is lost.",
  "all inventories, all checksum sets", "All algorithm sets and all previous fixity blocks.",
  I+":AddFile",O+":addReader")
p("Echo deletion removes exactly the vanished files of the area",
  "With echo on, after the update the head state of the updated area contains exactly the logical paths added or confirmed during the update, and logical paths outside the area are untouched.",
  "all states, all sets of confirmed files, all areas",
  "Areas whose names are prefixes of one another and empty updates are corner cases of an unbounded space.",
  I+":echoDelete",O+":echoDelete",O+":EndArea",O+":EndUpdate")
p("The published inventory changes only when the object is closed",
  "At every point before Close - including every crash point during StartUpdate, any number of adds and EndUpdate - the inventory and its digest file in the object root are byte-identical to what they were before the update.",
  "all update sequences, every prefix of the resulting storage writes",
  "Crash points: a test cannot stop the process between every two writes.",
  O+":StoreInventory",O+":EndUpdate",O+":Close",O+":addReader")
p("Stored content of earlier versions is never overwritten",
  "At every crash point of every update no file stored for an earlier version is changed or removed; all writes go below the new version directory, the extension folders, or are the root inventory and its digest file.",
  "all update sequences, all logical path names, every prefix of the writes",
  "Path names are unbounded; names that climb directories are not in any fixture.",
  O+":addReader",O+":BuildNames",I+":BuildManifestNameVersion",O+":StoreInventory")
p("After Close the inventory and its digest file agree",
  "After a completed Close the digest file of the root inventory, read back with the loader's rules, contains the digest of the bytes of the root inventory, likewise for the version directory after EndUpdate; a crash between the two root writes is reported as a digest mismatch when the object is loaded (unless the digests collide or the inventory did not change).",
  "all inventories, all digest algorithms, every crash point of Close",
  "Crash points and all byte contents.",
  O+":StoreInventory",O+":LoadInventory",O+":inventorySideCarFormat")
p("Digest file format round-trips",
  "For every digest the text written to the digest file is accepted by the loader and yields the same digest string; texts without a hexadecimal digest or without the file name are rejected.",
  "all hexadecimal digests, all texts", "All byte strings.",
  O+":StoreInventory",O+":LoadInventory")
p("Corrupted or missing content is reported",
  "If the inventory records content path p under digest d and the stored file p is missing or has another digest, validation reports E092; if every recorded content path is stored with its digest, no E092 is reported by the content check; the same for the fixity block and E093.",
  "all inventories, all stored contents", "Detection must hold for every corruption.",
  I+":CheckFiles",O+":createContentManifest")
p("Conflicting content paths are reported",
  "If one recorded content path is a directory prefix of another one (or two are equal) validation reports E101.",
  "all manifests", "The check sorts paths; its completeness is a statement about all path sets.",
  I+":checkManifest")
p("Conflicting logical paths are reported",
  "Validation reports E095 if and only if in some version one logical path is a directory prefix of another.",
  "all version states", "Only path sets with a third path sorting in between expose a gap.",
  I+":checkVersions")
p("Malformed paths are reported",
  "For every non-empty path in manifest, fixity and state, validation reports the invalid-path error if and only if the path starts or ends with a slash or has an empty, '.' or '..' element; validation terminates with a verdict for every inventory.",
  "all paths, all inventories", "All strings, including the empty one.",
  I+":checkManifest",I+":checkFixity",I+":checkVersions")
p("Gaps in the version sequence are reported",
  "Validation reports E010 if and only if the version numbers in the inventory are not exactly 1..n.",
  "all finite sets of version names", "All sets, in any iteration order.",
  I+":checkVersions",I+":Finalize")
p("A wrong head is reported",
  "For an inventory with well-formed version names and a non-empty head, validation reports E040 if and only if the head is not the version with the highest number.",
  "all finite sets of version names, all heads, all iteration orders", "All sets, in any iteration order.",
  I+":checkVersions",I+":GetVersionStrings",I+":VersionLessOrEqual")
p("The validation verdict does not depend on map order",
  "Validating the same inventory twice yields the same set of error codes.",
  "all inventories, all pairs of map iteration orders", "Go randomises map iteration; a test observes one order per run.",
  I+":checkVersions",I+":checkManifest",I+":checkFixity")
p("Root and version inventory comparison detects differences",
  "The comparison of the root inventory with the newest version's inventory (E064) accepts only inventories that describe the same manifest and the same logical state for every version, and is symmetric.",
  "all pairs of inventories", "Completeness over all pairs; the interesting pairs differ in one entry.",
  I+":isEqual",T+":EqualState",T+":EqualMeta","pkg/ocfl/inventory.go:InventoryIsEqual")
p("Different logical states are told apart",
  "Comparing a version recorded in the root inventory with the same version in a version inventory (E066) reports a difference whenever some logical path has different content in the two.",
  "all pairs of states", "All pairs of states.",
  T+":EqualState",O+":checkFilesAndVersions")
p("Distinct identifiers get distinct storage paths (hash-and-id layout)",
  "With the 0003 layout two different object identifiers are never mapped to the same storage path (assuming the digest function separates identifiers longer than the limit).",
  "all pairs of identifiers, all layout parameters", "Injectivity over all strings.",
  E3+":escape",E3+":BuildStorageRootPath")
p("Distinct identifiers get distinct storage paths (hashed layout)",
  "With the 0004 layout two identifiers with different digests are never mapped to the same storage path, for every tuple size and number that fits the digest, with and without short object roots.",
  "all pairs of digests, all layout parameters", "Injectivity over all strings and parameters.",
  E4+":BuildStorageRootPath")
p("Objects are never nested (layouts 0003 and 0004)",
  "With the 0003 and 0004 layouts no object's storage path is a directory prefix of another object's storage path, and every path element is a plain name: non-empty, without slash, not '.' or '..'.",
  "all pairs of identifiers, all layout parameters", "Relation between every two identifiers.",
  E3+":BuildStorageRootPath",E4+":BuildStorageRootPath")
p("Objects are never nested (other layouts)",
  "With the flat-direct, flat-omit-prefix, pairtree and direct-clean layouts no object's storage path is a directory prefix of (or equal to) the storage path of an object with a different identifier.",
  "all pairs of identifiers, all layout parameters", "Relation between every two identifiers.",
  "pkg/extension/0002-flat-direct-storage-layout.go:BuildStorageRootPath",E6+":BuildStorageRootPath",PT+":BuildStorageRootPath",DC+":build")
p("N-tuple-omit-prefix layout follows its definition and never crashes",
  "With the 0007 layout, for every identifier containing the delimiter and every positive tuple size and tuple count, the path consists of the requested number of tuples cut from the padded (and optionally reversed) identifier part followed by that part, and computing it never crashes.",
  "all identifiers, all configurations", "All configurations, including unusual padding values and short ids.",
  E7+":BuildStorageRootPath",E7+":reverse")
p("Storage layout parameters survive a reload",
  "Creating a storage root with a layout extension and opening it again maps every identifier to the same storage path as before.",
  "all layout extensions, all parameter values, all identifiers", "All parameter values.",
  E3+":WriteConfig",E4+":WriteConfig",E6+":WriteConfig",E7+":WriteConfig",PT+":WriteConfig",DC+":WriteConfig",S+":Init",S+":Load")
p("Direct-clean encoding is reversible in UTF mode",
  "With utfEncode on and no length limit exceeded, the cleaned path determines the sequence of non-empty path elements of the original: two paths with different element sequences never get the same cleaned path.",
  "all Unicode strings", "Injectivity over all strings; the escape of '=' interacts with the other rules.",
  DC+":build",DC+":encodeUTFCode")
p("Direct-clean output is safe",
  "Every path produced by the direct-clean layout has no empty, '.' or '..' element and no leading '~', contains none of the characters on its forbidden list, respects the maximal element and path length, and falls back to a digest otherwise - for every configuration.",
  "all Unicode strings, all configurations", "Path traversal safety over all strings and configurations.",
  DC+":build",DC+":fallback")
p("Concurrent path mapping is independent",
  "Paths computed concurrently by several goroutines with one direct-clean extension equal the paths computed sequentially.",
  "all interleavings of any number of concurrent calls", "Schedules cannot be enumerated by tests.",
  DC+":fallback")
p("Extension exclusion keeps exactly one of a group",
  "After the extension manager is finalised, of the extensions named in an exclusion group exactly the one named earliest in the group remains active (if any was configured) and every extension not named in the group stays active; sorting neither adds nor drops extensions.",
  "all extension lists, all exclusion groups, any sorting algorithm for equal elements", "All lists and groups; the sort is unstable.",
  M+":excludeExtensions",M+":sortExtensions",M+":organize")
p("Area paths round-trip",
  "For an area mapped to a sub path, extracting in that area the logical path under which a file was added gives back the original relative path, and a file added in one area is not extracted when another area is requested.",
  "all area configurations, all clean relative paths", "Area prefixes of one another and all path strings.",
  CS+":BuildObjectStatePath",CS+":BuildObjectExtractPath")
p("Extraction is complete and exact",
  "A successful extraction of a version for an area writes, for every logical path of that area, exactly the stored content with the recorded digest and nothing else; the verdict does not depend on map order; content not matching its digest makes the extraction fail.",
  "all inventories, all storages, all areas, all iteration orders", "All states and iteration orders.",
  O+":Extract",I+":IterateStateFiles",CS+":BuildObjectExtractPath")
p("Every object in a storage root is found once",
  "Listing the object folders of a storage root returns each folder that holds an object declaration exactly once and nothing inside an object, whatever the directory tree looks like as long as intermediate directories hold no files.",
  "all directory trees", "All tree shapes.",
  S+":GetObjectFolders",S+":GetFolders")
p("Version declarations are recognised exactly",
  "A directory is accepted as storage root or object of version x.y exactly if it contains one file named '0=<type>_x.y' with matching content; no other file name is taken for a declaration.",
  "all directory listings and contents", "All file names.",
  H+":getVersion",H+":validVersion")
p("Creating an object never destroys an existing one",
  "Creating an object for an identifier whose storage directory already holds anything fails and leaves the storage unchanged; creating a storage root in a non-empty directory fails and leaves it unchanged; distinct identifiers whose mapping fails are not silently stored under a wrong path.",
  "all storages, all identifiers", "Frame property over all storages.",
  S+":CreateObject",O+":Init",S+":Init",M+":BuildStorageRootPath")
p("No validation finding is lost in the report",
  "The final report (after removing duplicates) contains a finding if and only if it was recorded during validation, whatever the sort does, and contains no finding twice; the report says 'no errors' only if no error-class finding was recorded.",
  "all lists of findings, all orders the sort may produce", "The comparison used is not a consistent order; all lists must be covered.",
  V+":Compact",V+":validationSort",CMD+":showStatus")
p("Sorted insertion keeps the index sorted",
  "Inserting into a sorted list through binary search gives a sorted list with exactly one more occurrence of the inserted element, so membership tests by binary search stay correct.",
  "all sorted lists, all elements", "All lists.",
  H+":sliceInsertSorted",H+":sliceInsertAt",I+":checkFixity")
p("Clean paths are bounded and well-formed",
  "A path accepted by the path cleaner has no element longer than the limit, is not longer than the limit, has no empty elements, contains no forbidden character, and cleaning it again changes nothing; no element is '.' or '..'.",
  "all strings, all limits", "All strings.",
  H+":CleanPath",H+":FixFilename")
p("Automatic follow-up versions terminate",
  "Ending an update with extensions that request follow-up versions always terminates, and each extension triggers at most one follow-up version per object handle.",
  "all sets of extensions, all request patterns satisfying the extensions' own done flag", "Termination for all request patterns.",
  O+":EndUpdate",M+":NeedNewVersion","pkg/extension/NNNN-migration.go:NeedNewVersion","pkg/extension/NNNN-migration.go:DoNewVersion")
p("Stream processing delivers the whole stream to every extension",
  "When content is streamed to several extensions every extension that reads to the end receives exactly the bytes of the content, in order, an extension that stops reading early or fails never blocks the others or the ingest, and its error is reported.",
  "all schedules, all chunkings, all numbers of extensions", "Schedules and chunk sizes.",
  M+":StreamObject",O+":addReader")
p("The published inventory always describes the stored content",
  "Create an object and update it in any number of sessions, each of which ends with Close and may be interrupted by a crash after any write or in the middle of one. Whenever the root inventory and its digest file are accepted by the loader, every content path in the manifest is stored, with content of the recorded digest.",
  "all inventories, all call histories including extension hooks, all numbers of sessions, all crash points, all hash functions and JSON encodings with the stated laws",
  "Crash points inside writes across several sessions cannot be enumerated by tests.",
  O+":addReader",O+":EndUpdate",O+":Close",O+":LoadInventory",O+":StoreInventory")
p("Objects that satisfy the rules are accepted",
  "An object whose inventories follow the rules (numbered versions, head, states and manifest with the same digests, proper paths), whose version folders hold an inventory that agrees with the root inventory and a correct digest file, whose manifests and fixity blocks tell the truth about the stored files, and in which nothing else is stored, is validated to the end without a panic and with no finding other than warnings.",
  "all objects, all hash functions and inventory encodings, all map iteration orders", "The absence of false alarms is a statement about all correct objects; a test checks a handful of fixtures.",
  O+":Check",O+":checkFilesAndVersions",I+":Finalize",O+":loadInventory")
p("Objects written by complete sessions are valid",
  "Create an object and update it in any number of sessions, where every session opens the stored object, makes updates that are each started, change something and are ended, and closes the handle, all without error, and new content goes to unused clean paths. Then validating the stored object comes to an end without a panic and reports nothing but warnings.",
  "all inventories, all call histories including echo deletion, failing calls and versions made by extension hooks, all numbers of updates and sessions, all map orders, all hash functions and encodings with the stated laws",
  "Writer and validator are developed side by side; that they agree on all histories is beyond any set of fixtures.",
  O+":StartUpdate",O+":AddFile",O+":EndUpdate",O+":Close",O+":Check",O+":checkFilesAndVersions",I+":Finalize")
p("A stored inventory is read back unchanged",
  "Writing an inventory as JSON and reading the text again gives the same inventory to the loader and to the validator, whatever characters its strings contain; no strict prefix of the written text is accepted; so what is proved about stored objects for an abstract encoding holds for the JSON text that is really written.",
  "all inventories, all strings, all places where the text is cut, all map iteration orders",
  "Escaping, invalid bytes and truncation interact over all strings; a test writes a few friendly names.",
  "pkg/ocfl/inventorytypes.go:MarshalJSON",O+":StoreInventory",O+":loadInventory","pkg/ocfl/inventorytypes.go:UnmarshalJSON",I+":Finalize")
p("Parts of an inventory with the wrong JSON type are reported",
  "An object whose root inventory, or the inventory of one of its versions, has a part of another JSON type than the specification demands (identifier, type, digest algorithm, head, manifest, versions, creation time, message, user, state, fixity, content directory), or lacks a required part, is not accepted; the report has the code of that part.",
  "all JSON texts, all objects around them, all map iteration orders",
  "The decoder ignores case, keeps going after type errors and records them in three different ways; all combinations cannot be tried.",
  O+":loadInventory","pkg/ocfl/inventorytypes.go:UnmarshalJSON",I+":Finalize",I+":checkVersions",O+":Check")
p("An accepted object keeps what its inventory promises",
  "If the validator reports nothing but warnings, then the root inventory satisfies the rules for inventories, it and every version inventory that is stored carry the right digest and agree with each other, everything that is recorded in a manifest or fixity block is stored with the recorded digest, and every file of every version can be retrieved.",
  "all objects, all hash functions and inventory encodings, all map iteration orders",
  "What follows from a clean report is a statement about all objects, also damaged ones; a test checks that some chosen damage is found.",
  O+":Check",O+":checkFilesAndVersions",I+":Finalize",O+":loadInventory")
p("Every stored file is accounted for in an accepted object",
  "If the validator reports nothing but warnings, then every file stored in the object is an inventory, a digest file or a declaration in the right place, lies in the folders for logs or extensions, or lies in the content directory of a version and is listed with its digest in the root manifest and the manifests of all versions from that one on; other files in version folders bring a warning.",
  "all objects, all file names, all map iteration orders",
  "Surplus files can have any name in any place; a test plants a few.",
  O+":Check",O+":checkFilesAndVersions",O+":checkVersionFolder")
p("A created object gives the ingested folders back",
  "Creating an object from folders, one for each area, succeeds if the folders can be read, and after loading the object again the extraction of the newest version of an area gives the same files with the same bytes and no others, with or without de-duplication, however deep the folders are.",
  "all folder trees, all areas and area configurations, all hash functions and encodings with the stated laws, all map iteration orders",
  "Path mapping, de-duplication, storing, loading and extraction work together over all trees; a test ingests one small folder.",
  "gocfl/cmd/helper.go:addObjectByPath",O+":AddFolder",O+":AddFile",O+":EndUpdate",O+":Close",O+":Extract","pkg/extension/NNNN-content-subpath.go:BuildObjectExtractPath")
p("An update adds to what is there, or replaces it with echo deletion",
  "Updating a stored object with folders succeeds, and afterwards the extraction of an area gives the files of its folder together with the files it had before that are not in the folder; with echo deletion the latter are gone.",
  "all objects made by complete sessions, all folder trees, all areas, all hash functions and encodings with the stated laws, all map iteration orders",
  "The result depends on the whole earlier content of the object; a test updates one object once.",
  "gocfl/cmd/helper.go:addObjectByPath",O+":AddFolder",O+":AddFile",O+":echoDelete",O+":Extract",I+":AddFile",I+":AlreadyExists")
p("Every version stays available as it was",
  "Whatever complete sessions do to an object with unpadded version names, the extraction of every version that was there before gives the same result as before, for every area and every target; after a history of ingest requests version k is extracted to what the area held after request k, and there are no other versions.",
  "all objects made by complete sessions, all call histories including extension hooks, all versions, areas and targets, all map iteration orders",
  "The claim is about all versions after all later histories.",
  O+":Extract",O+":StartUpdate",O+":EndUpdate",O+":Close",I+":IterateStateFiles")
p("Ingested objects are valid",
  "An object that was created and updated by any number of successful ingest requests is accepted by the validator with nothing but warnings, provided its version states hold no name both as a file and as a directory; this also holds for the JSON text that is really written and read.",
  "all numbers of requests, all folder trees, all digests and encodings with the stated laws, all map iteration orders",
  "The writer and the validator are separate code; that they agree on all objects cannot be shown by validating a few.",
  "gocfl/cmd/helper.go:addObjectByPath",O+":AddFolder",O+":EndUpdate",O+":Close",O+":Check")
p("The objects of a storage root do not disturb each other",
  "After any requests for any identifiers in any order, the object of an identifier is found by its identifier, carries it, has one version per request made for it and gives back what each of these requests stored; an identifier without request has no object; no other file of the storage root changes. Sessions of different objects that run interleaved, or are interrupted at any point, leave every object as its own session alone would.",
  "all request histories, all interleavings and interruption points, all folder trees, all identifiers for which the layout gives folders that are not nested (shown for layouts 0003 and 0004), all map iteration orders",
  "The number of objects, orders and interleavings is unbounded; a test works on one or two objects one after the other.",
  "gocfl/cmd/helper.go:addObjectByPath","pkg/ocfl/storagerootbase.go:LoadObjectByID","pkg/ocfl/storagerootbase.go:CreateObject","pkg/ocfl/storagerootbase.go:ObjectExists",O+":Close",O+":EndUpdate")
p("The metadata report of an object is exact",
  "The metadata report of an object has exactly the versions of the inventory and exactly the stored contents, each with all its content paths, with exactly the logical paths it has in every version, with fixity digests that are recorded for its first content path, and with what each extension reports for it; it fails only if an extension fails.",
  "all inventories, all call histories before, all extension results, all map iteration orders (a new order in every nested loop)",
  "The report is joined from five maps over all versions, with Go's random map order; a test sees one inventory and one order.",
  O+":GetMetadata","pkg/ocfl/fixity.go:Checksums","pkg/ocfl/metadata.go","pkg/extension/NNNN-gocfl-extension-manager.go:GetMetadata")
p("Side files of extensions are read back and stay",
  "What an extension stored with WriteJsonL for the current version is exactly what ReadJsonL returns for that version, for every compression and storage type; later calls, also failing or interrupted ones, do not change what is read for an old version.",
  "all texts, all compressions with the round-trip law, all storage configurations for which both functions mean the same file (the others are refuted), all inventories, all later call histories and interruption points",
  "Writer and reader build the path in two different ways from five configuration values; a test uses one configuration.",
  H+":WriteJsonL",H+":ReadJsonL",I+":BuildManifestNameVersion",O+":AddReader",CS+":GetAreaPath",M+":GetAreaPath")
p("Indexer metadata belongs to the content it was computed from",
  "For an object made by any number of sessions with the indexer, GetMetadata of a new handle succeeds; every digest in its answer is the digest of content for which the indexer returned exactly that result, no recorded result is missing, and each result of a streamed file is recorded under its content path.",
  "all numbers of sessions, all call sequences with and without hooks, including those of other extensions, all indexer functions, digests, encodings and line formats with the stated laws, all map iteration orders",
  "Results travel through a buffer per version, a compressed side file and two joins over the manifest; a test indexes one object once.",
  "pkg/extension/NNNN-indexer.go:StreamObject","pkg/extension/NNNN-indexer.go:UpdateObjectAfter","pkg/extension/NNNN-indexer.go:GetMetadata",O+":addReader",H+":WriteJsonL",H+":ReadJsonL")
p("A migration converts exactly what was planned and loses nothing else",
  "After DoNewVersion of the migration extension the newest version is the previous one with each planned content converted: the converted file is at its target name with its data stored and in the manifest, the originals are kept, deleted or moved as the strategy says, contents whose conversion failed and all other files are unchanged, the side file has one line for each planned content with an error exactly if the conversion failed, and nothing is left to do.",
  "all inventories, all numbers of planned contents and of names per content, all conversion tools and name functions, all strategies mixed, all map iteration orders; contents that do not get in each other's way (the other cases are refuted)",
  "The contents are processed in random map order and each step changes the maps that the next one reads; a test converts one file.",
  "pkg/extension/NNNN-migration.go:DoNewVersion","pkg/subsystem/migration/helper.go:DoMigrate","pkg/subsystem/migration/migrate.go:GetDestinationName",O+":AddReader",O+":DeleteFile",O+":RenameFile",O+":EndUpdate")
p("A recorded migration is not repeated",
  "For an object whose migration side files can be read, GetMetadata succeeds and gives the results of exactly the recorded lines; a new handle then plans exactly the stored contents of a known format that no line names as source, so that finished and failed conversions are not done again.",
  "all inventories, all numbers of versions and lines, all formats and tool tables, all map iteration orders; results that no two contents share (refuted otherwise)",
  "The plan joins side files of all versions with two passes over the manifest and the report of the indexer; a test looks at one object after one migration.",
  "pkg/extension/NNNN-migration.go:GetMetadata","pkg/extension/NNNN-migration.go:UpdateObjectAfter","pkg/extension/NNNN-migration.go:alreadyMigrated",H+":ReadJsonL",O+":GetMetadata")
p("A whole storage root is valid exactly if all its parts are",
  "Validation of a storage root shows nothing but warnings exactly if the root declares one known version and every object in it declares one version, not later than that of the root, and is accepted on its own. If validation comes to its end, every finding of an object is shown with the folder of that object, objects that cannot be loaded are reported, and no error is blamed on an object in which it was not found.",
  "all directory trees of any depth and number of objects in which declarations can be told by their names, all file contents, digest functions, encodings and extension factories, all map iteration orders; the other cases are refuted",
  "The verdict joins the listing of a tree, two ways to read declarations and the findings of any number of objects, of which each may stop the run; a test validates a fixture with one or two objects.",
  "gocfl/cmd/validate.go:validate","pkg/ocfl/storagerootbase.go:Check","pkg/ocfl/storagerootbase.go:CheckDirectory","pkg/ocfl/storagerootbase.go:CheckObjects","pkg/ocfl/storagerootbase.go:CheckObjectByFolder","pkg/ocfl/storagerootbase.go:LoadObjectByFolder","pkg/ocfl/storageroot.go:LoadStorageRoot")
p("Unknown extensions are reported and do no harm",
  "CreateExtensions takes over the extensions that can be created in the order of their folders, without initial and the manager, and gives exactly one warning for each one that cannot be created and for each one that is not registered.",
  "all extensions folders as the program writes them, with any number of known, unknown and unreadable extensions, all factories; loading of a storage root and foreign extensions folders are refuted",
  "Extensions of later programs do not exist yet; a test knows only the present ones.",
  "pkg/ocfl/extensionFactory.go:CreateExtensions","pkg/extension/initial.go:SetExtension","pkg/extension/NNNN-gocfl-extension-manager.go:Add","pkg/ocfl/storageroot.go:LoadStorageRoot")
p("A storage root filled by requests is valid as a whole",
  "After Init and any number of successful add and update requests for any number of identifiers, a walk over the storage root finds exactly the objects that were created, each in the folder of its identifier, and validation of the whole root comes to its end and shows nothing but warnings.",
  "all sequences of requests, all identifiers with folders apart from each other and from the folder of the extensions, all contents without path extensions in which no name is a file and a directory, all digest functions with hexadecimal results, all map iteration orders; identifiers whose folder is the extensions folder are refuted",
  "Requests, layouts, the walk over the tree, declarations, extensions and the object checks have to agree for arbitrarily many objects; tests fill a root with one or two objects and validate an object alone.",
  "gocfl/cmd/add.go:doAdd","gocfl/cmd/update.go:doUpdate","gocfl/cmd/validate.go:validate","pkg/ocfl/storagerootbase.go:Init","pkg/ocfl/storagerootbase.go:CreateObject","pkg/ocfl/storagerootbase.go:GetObjectFolders","pkg/ocfl/storagerootbase.go:Check")
p("Extraction of a storage root gives back what was handed in",
  "After any sequence of requests, extraction of the storage root fills the folder of every created object with exactly the content that the requested version of this object had when it was handed in, and writes nothing else. Extraction of one object, named by its identifier or its folder, gives the content of the requested version and area. A version or an object that does not exist is an error and nothing is written, and a target that is in use is not touched.",
  "all sequences of requests for any number of identifiers with folders apart from each other and from the extensions folder, all versions, all contents, all map iteration orders; for the whole root every object must have the requested version, and the area is the default one (both refuted otherwise)",
  "The content of every object at every version after every history would have to be compared; tests extract one object of a fixture.",
  "pkg/ocfl/storagerootbase.go:Extract","pkg/ocfl/storagerootbase.go:LoadObjectByFolder","pkg/ocfl/storagerootbase.go:LoadObjectByID","pkg/ocfl/objectbase.go:Extract","gocfl/cmd/extract.go:doExtract")
p("The metadata of a storage root covers every object and every file",
  "After any sequence of requests the metadata report of the storage root has one entry for every created object and no other. The entry has the identifier, the versions and the head of the object, and names in every version exactly the files that were handed in, under their paths and with the digests of their content.",
  "all sequences of requests for any number of identifiers, all versions and contents, all map iteration orders, all results of extensions; files for objects without path extensions; two objects with the same identifier are refuted",
  "The report joins the inventories of arbitrarily many objects, and its map order is random; tests look at one report.",
  "pkg/ocfl/storagerootbase.go:ExtractMeta","pkg/ocfl/objectbase.go:GetMetadata","gocfl/cmd/extractmeta.go:doExtractMeta")
p("The descriptive metadata that was given last is reported",
  "With the metafile extension the text of the metadata source is stored when an update starts. A new handle on the object reports the metadata of the last finished update that was given some, in whatever version that was; updates without a source change nothing about it. Metadata kept in the folder of the extension stays as it is whatever handles without a source do, also if they fail or are interrupted.",
  "all histories of creations and updates with and without sources, all sources and texts, all map iteration orders, storage in an area, a path or the folder of the extension; updates that change something and configurations for which writer and reader mean the same file (refuted otherwise)",
  "The reader searches all versions backwards with paths computed differently from the writer; tests write and read one version with one configuration.",
  "pkg/extension/NNNN-metafile.go:UpdateObjectBefore","pkg/extension/NNNN-metafile.go:GetMetadata","pkg/ocfl/helper.go:ReadFile","pkg/ocfl/objectbase.go:StartUpdate")
p("A stored inventory is read as RFC 8259 says",
  "A text is read as JSON exactly if it is a JSON text by the grammar of RFC 8259, nested at most 10000 deep, and then its value is the one the RFC gives: numbers, escapes, surrogate pairs, white space. Two texts of the same inventory that differ in layout, escapes and the order of members are loaded as the same inventory, so an inventory written by other software is read correctly; any other text is refused.",
  "all texts, all values, all inventories; white space everywhere the grammar allows it, all escapes, any number of exchanges of members at any depth whose names differ also when case is ignored",
  "The grammar has infinitely many texts for each value; the software itself writes only one of them, so its own round-trip tests never reach the others.",
  "pkg/ocfl/objectbase.go:loadInventory","pkg/ocfl/inventorytypes.go:UnmarshalJSON")
p("Every stored file with a thumbnail function gets one thumbnail, kept and reported",
  "With the thumbnail extension an update leaves for every content of the manifest that can be read and has a thumbnail function one record: either the digest of the thumbnail that the function makes of the stored file, which is then stored in the folder of the new version and listed in the manifest, or an error if the function fails. No content is recorded twice, however many updates follow. The report of a new handle on the object has an entry for every record and no others, and every entry without error names the digest of a stored file with that digest. Kept in the folder of the extension, thumbnails change nothing else of the object.",
  "all histories of creations and updates with the extension, all contents, functions, indexer results, random numbers for which the hook does not panic, all map iteration orders; storage in an area, a path, or the folder of the extension; types in lower case (refuted otherwise)",
  "Which files get a thumbnail depends on what earlier updates wrote into side files and on the merged metadata report; there are no tests of it, and one random number in four panics.",
  "pkg/extension/NNNN-thumbnail.go:UpdateObjectAfter","pkg/extension/NNNN-thumbnail.go:storeThumbnail","pkg/extension/NNNN-thumbnail.go:DoThumbnail","pkg/extension/NNNN-thumbnail.go:GetMetadata","pkg/subsystem/thumbnail/thumbnail.go:GetFunctionByPronom")
p("The METS document lists every file of the version and is stored with the PREMIS document it refers to",
  "With the mets extension an update makes a METS document that has exactly one entry for every logical path of the working version that is not metadata about the content, with the digest of that path, its group, the logical path and the content paths under that digest. Metadata files are referred to with their digest, the primary metadata under its own heading. The PREMIS document has one object for every entry, under the same identifier, a packing event for every version that has the content, and an event for every migration with the identifiers of source and result. Both documents are stored and listed in the manifest under their digests, and the digest that METS gives for PREMIS is that of the stored text.",
  "all objects made by histories of sessions and all working states of a session, all results of other extensions, identifiers and texts of documents, all map iteration orders; content folder called content, areas with different paths of one element (refuted otherwise), storage in an area or a path",
  "The document is computed from the merged report of all extensions by nested loops over Go maps, and there is no test of the extension; a file that is left out shows only when somebody compares the document with the object.",
  "pkg/extension/NNNN-mets.go:UpdateObjectAfter","pkg/extension/NNNN-mets.go:newMDSec","pkg/extension/NNNN-mets.go:checksumTypeToMets")
p("Metadata of the source file system is kept with the version and reported for the right content",
  "With the filesystem extension the metadata of every file that is stored from a file system is recorded with the logical path of the file and the version, and stays recorded until the update ends. If a name for folder files is configured, every folder is in the version as an empty file with this name, and its metadata is recorded with the path of that file. After any number of updates, with and without the extension, a new handle reports without error: under each digest and version are exactly the records of that version for the paths which the version gives to that digest.",
  "all objects made by histories of sessions with and without the extension, all files and folders, metadata, other calls and calls of other extensions, all map iteration orders; files with new content, folders with mapped paths, paths not given to other files in the session (refuted otherwise)",
  "Recording, packing and reading of the records lie in different hooks and sessions, and the records are joined to the digests by path, version by version; there is no test of the extension, and a record that is missing or under the wrong digest shows only when somebody compares all of them with the source.",
  "pkg/extension/NNNN-filesystem.go:AddFileAfter","pkg/extension/NNNN-filesystem.go:UpdateObjectAfter","pkg/extension/NNNN-filesystem.go:GetMetadata","pkg/ocfl/objectbase.go:AddFile")
p("Handles open at the same time do not harm what is published",
  "Any number of handles may be open on one object, in one process or several, and their effects may happen in any order and stop anywhere. The files of the versions that existed when the handles were opened do not change. As long as no handle is closed, the published inventory does not change either. If one handle is closed after complete updates, the object is loaded with its inventory and with all its content.",
  "all numbers of handles, all calls on them, all interleavings of their effects, all crash points; for the last part the other handles are not closed and store no content under the same paths (refuted otherwise)",
  "Interleavings of file writes of several processes cannot be steered by a test, and what is lost shows only when both results are compared; the project has no locks and no test with two handles.",
  "pkg/ocfl/objectbase.go:StartUpdate","pkg/ocfl/objectbase.go:EndUpdate","pkg/ocfl/objectbase.go:Close","pkg/ocfl/objectbase.go:AddFile")
p("A request can be made again after attempts that failed or were interrupted",
  "An update of an object fails because files of the source cannot be opened, or the machine stops in the middle of it, any number of times. When the same request is then made again and nothing stands in its way, it succeeds, and the object has exactly the files that it would have without the attempts: nothing of the attempts is left, and the areas hold what the folders hold.",
  "all objects that were published, all folders, all sets of files that cannot be opened in an attempt, all crash points of all attempts, any number of attempts, all map orders inside the calls; the attempts were made for the same folders in the same order (refuted otherwise), and the object existed before (refuted otherwise)",
  "The moments at which an attempt can stop and the combinations of attempts are unbounded; a leftover shows only in a comparison of all files with a run without attempts, which no test of the project makes.",
  "gocfl/cmd/helper.go:addObjectByPath","pkg/ocfl/objectbase.go:AddFolder","pkg/ocfl/objectbase.go:AddFile","pkg/ocfl/objectbase.go:EndUpdate","pkg/ocfl/objectbase.go:Close")
p("The report about an object names the rules that were found broken",
  "After the validation of an object the report shows a code exactly if the validator recorded a finding with this code, and it announces that there are no errors exactly if nothing but warnings was recorded. So if no errors are announced, the files of all versions are there with their digests.",
  "all objects (all sets of files, also damaged ones), all orders of the maps, all results of the sort, all texts; objects of version 1.1 for the codes, all versions for the announcement (codes of other versions refuted)",
  "That every finding of every possible object has an entry in the table of its version needs all paths through the validator; a test sees the codes of its own objects only.",
  "pkg/ocfl/validationerror.go:GetValidationError","pkg/ocfl/objectbase.go:addValidationError","pkg/ocfl/inventorybase.go:addValidationError","gocfl/cmd/helper.go:showStatus","gocfl/cmd/validate.go:validate")
p("What the validator accepts can be loaded and extracted",
  "If the validator reports nothing but warnings about an object of any origin, the object can be loaded without findings, and the extraction of every version succeeds: every file of the version is written with content of its recorded digest and nothing else is touched.",
  "all objects, all hash functions and inventory encodings, all versions, areas and targets that take the names, all map iteration orders; digests in lower case with a content path (both refuted otherwise), and one digest for each path (otherwise the content depends on the map order, refuted)",
  "The two halves of the program read the same inventory by different rules; a test would have to try every object that the validator lets through.",
  "pkg/ocfl/objectbase.go:Check","pkg/ocfl/objectbase.go:LoadInventory","pkg/ocfl/objectbase.go:Extract","pkg/ocfl/inventorybase.go:IterateStateFiles","pkg/ocfl/inventorybase.go:checkManifest")
p("Objects of any origin keep their versions when they are updated",
  "If the validator reports nothing but warnings about an object of any origin, then after any number of updates, complete or interrupted, every version that the object had is extracted exactly as before: the same files, bytes and errors; after a completed update the object can be opened again and its inventory contains all old versions unchanged.",
  "all objects, all hash functions and inventory encodings, all sequences of handles with any calls and settings, all crash points, all versions, areas, targets and map orders; every digest has a content path and new content gets clean relative paths (both refuted otherwise)",
  "The guarantee for objects made by other programs rests on the checks of the validator and on every later write; no finite set of foreign objects, updates and crash points shows it.",
  "pkg/ocfl/objectbase.go:Check","pkg/ocfl/objectbase.go:LoadInventory","pkg/ocfl/objectbase.go:StartUpdate","pkg/ocfl/objectbase.go:AddFile","pkg/ocfl/objectbase.go:Close","pkg/ocfl/objectbase.go:Extract","pkg/ocfl/inventorybase.go:NewVersion")
p("The display server delivers the content that was asked for",
  "A download from the display server delivers the stored content with the requested digest from the object with the requested identifier, and a download of an extension file delivers a file of that extension, whatever was requested before or is requested at the same time.",
  "all storage roots, layouts, hash functions and inventory encodings, all sequences of requests, all interleavings of concurrent requests, all identifiers, digests and paths, all map orders",
  "All requests share one loaded object and its metadata without a lock; which content is delivered depends on the history and on the interleaving, which tests do not enumerate.",
  "gocfl/cmd/display/server.go:download","gocfl/cmd/display/server.go:downloadExtFile","gocfl/cmd/display/server.go:loadObjectID","gocfl/cmd/display/server.go:loadObjectPath","gocfl/cmd/display/server.go:displayObject","pkg/ocfl/storagerootbase.go:LoadObjectByID","pkg/ocfl/storagerootbase.go:LoadObjectByFolder","pkg/ocfl/objectbase.go:GetMetadata")
p("Complete updates of an object of any origin give a valid object",
  "An object that the validator accepts, whatever program has made it, is accepted again after any number of complete update sessions, each on the inventory that the loader returns, and the next session can always begin.",
  "all hash functions with hexadecimal digests, all inventory encodings that read back what is written, all objects and file trees, all numbers of sessions, all sequences of calls, all settings, all map orders",
  "What the update writes depends on inventories written by other programs, with their own spelling of digests, versions and fixity blocks; tests only update objects made by this program.",
  "pkg/ocfl/objectbase.go:StartUpdate","pkg/ocfl/objectbase.go:EndUpdate","pkg/ocfl/objectbase.go:Close","pkg/ocfl/objectbase.go:LoadInventory","pkg/ocfl/objectbase.go:Check","pkg/ocfl/inventorybase.go:NewVersion","pkg/ocfl/inventorybase.go:AddFile","pkg/ocfl/inventorybase.go:GetDuplicates")
p("A failed read of the inventory does no harm",
  "If the inventory of an object cannot be read at the moment (the driver reports another error than a missing file), loading the object reports the failure, or at least no later call on the handle changes a file of the object.",
  "all storage contents, all drivers that fail on the inventory, all sequences of calls with hooks, all stop points, all path settings, all hash functions without an algorithm of empty name, all map orders",
  "The fault must hit one read of an otherwise sound object, and the harm depends on the calls that follow; tests run on healthy file systems.",
  "pkg/ocfl/objectbase.go:LoadInventory","pkg/ocfl/objectbase.go:Load","pkg/ocfl/inventorybase.go:newInventoryBase","pkg/ocfl/objectbase.go:StartUpdate","pkg/ocfl/objectbase.go:addReader","pkg/ocfl/objectbase.go:AddFile","pkg/ocfl/objectbase.go:StoreInventory","pkg/ocfl/storagerootbase.go:LoadObjectByFolder")
p("The validator does not accept an object while one of its inventories cannot be read",
  "If the driver cannot read the inventory of an object with at least one version folder, the inventory of one of its versions, or a digest file of one of them, validation ends with an error or a finding that is more than a warning, even if the failure is over when the content is read; failures on other files when inventories are loaded do not change the verdict.",
  "all storage contents, all drivers that fail on any of these files, all inventories, all hash functions without an algorithm of empty name, all map orders",
  "A failed read gives an empty inventory without a finding of its own; that it is noticed at all depends on checks that were made for other purposes. Tests have no failing file systems.",
  "pkg/ocfl/objectbase.go:LoadInventory","pkg/ocfl/objectbase.go:Check","pkg/ocfl/objectbase.go:getVersionInventories","pkg/ocfl/objectbase.go:createContentManifest","pkg/ocfl/objectbase.go:getAllDigests","pkg/ocfl/objectbase.go:checkFilesAndVersions","pkg/ocfl/inventorybase.go:newInventoryBase")
p("The statistics of an object and of a storage root show what the inventories say",
  "For a loaded object, the statistics name its head, its fixity algorithms and the numbers of its content paths and digests; they have one section for each version with user, date, message and exactly the logical files of its state, each followed by the content paths of its digest; the folder of the object is shown as its path. Every kind of information that is asked for by name is shown. The statistics of a storage root have all its objects in the order of the folders.",
  "all inventories, all selections of information, all map orders, all storage roots with any objects that can or cannot be loaded, all option strings",
  "The output is made by nested loops over Go maps under interacting conditions, so it differs from run to run; a test compares one output for one selection.",
  "pkg/ocfl/objectbase.go:Stat","pkg/ocfl/storagerootbase.go:Stat","pkg/ocfl/inventorybase.go:GetVersions","pkg/ocfl/inventorybase.go:GetFixity","gocfl/cmd/stat.go:doStat","gocfl/cmd/stat.go:doStatConf")
with open(os.path.join(os.path.dirname(__file__),"..","properties.jsonl"),"w") as f:
    for x in P: f.write(json.dumps(x,ensure_ascii=False)+"\n")
print(len(P))
