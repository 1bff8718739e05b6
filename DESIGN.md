# Machine-checked model of gocfl

Prover: Coq/Rocq 8.16.1 with std++ (finite maps, lists). Sources in `rocq/theories`.
Build: `cd rocq && coq_makefile -f _CoqProject -o Makefile && make -j4`.

## Conventions

* Every definition of a `*Model.v` file models one Go function and cites file and lines of `/repo` in a comment; every
  simplification is stated there.
* `*Spec.v` files contain the vocabulary the theorems are stated in (what "logical path p has digest d in version v"
  means, "directory prefix", "crash state" ...). They use the data types of the model and its entry points, not its helpers.
* `Properties1.v` to `Properties9.v` (and later) contain only `Theorem ... Proof. exact lemma. Qed.`, a concrete `Example` meeting the
  hypotheses, and `Print Assumptions`.
* If a property is false of the code, the theorem `Cnn_..._refuted` gives a concrete witness computed by the model, and
  the strongest true variant found is proved as `Cnn_..._partial`.
* Go specific effects: errors are values; panics (nil dereference, index out of range, division by zero) are a separate
  outcome; a method that mutates and then fails returns the mutated state together with the error.
* Go map iteration order: finite maps `gmap string _` plus an explicit *order oracle* - a function from maps to lists
  which is only assumed to return a permutation of the map's entries. Oracles are indexed by call site, so two loops
  over the same map may see different orders. Theorems quantify over all oracles.
* Unstable sorts: modelled as a parameter with its contract (a sorted permutation) as hypothesis. Only for C43 with at most
  twelve findings the insertion sort of `slices.SortFunc` itself is used.
* Crash points: storage effects of an operation are a list of primitive events (create/truncate, append bytes); a crash
  state is the result of any prefix of the events, the last append being possibly cut short.
* Goroutines: C36 a machine driven by a schedule, C47 a small-step relation; theorems quantify over all schedules.
* Possibly endless recursion (EndUpdate calling itself, C46): fuel, with the theorem that enough fuel exists.

## Trusted base

* The Coq kernel (and coqchk), std++ definitions. `Print Assumptions` of every property theorem prints "Closed under the
  global context" (no axioms). The seven axioms listed by the gate (`Coq.ssr.ssrunder.Under_rel.*`) are part of the
  standard library's ssreflect plugin, which std++ loads; no theorem depends on them.
* External behaviour taken as parameters (quantified in the theorems, with hypotheses stated there): hash functions, the
  encoding of an inventory (`json_ok`: decoding gives the record back, no strict prefix decodes; C51 proves this of the JSON text
  that is written), number ranges and time parsing of the Go library, wall clock, the storage
  driver (does what create/write/close say; writes are not reordered), map order, `slices.SortFunc`, extensions (their
  hooks are arbitrary functions of their state and the object).
* Library facts built into the model: `path.Clean`/`path.Join`, `strings.*`, `strconv.Atoi` (without 64 bit overflow), the
  UTF-8 decoder, `bufio.Writer`, `io.MultiWriter`, `io.Pipe` (a write ends when all its bytes are read), `slices.BinarySearch`,
  `slices.SortFunc` being insertion sort up to twelve elements, regular expressions of the project unfolded by hand.
* The reading of the Go code into Gallina by hand.

### Modelled code

| Go | Coq |
|----|-----|
| `pkg/ocfl/inventorybase.go` updates (NewVersion, AddFile, CopyFile, DeleteFile, RenameFile, echoDelete, Clean, lookups, IterateStateFiles) | `InventoryModel.v` |
| `pkg/ocfl/objectbase.go` updates (StartUpdate, AddFile, AddData, AddReader, DeleteFile, RenameFile, areas, EndUpdate, Close, StoreInventory) | `ObjectModel.v` |
| `objectbase.go` LoadInventory, digest file format | `LoadModel.v` |
| `inventorybase.go` Finalize, check*, CheckFiles, isEqual; `inventorytypes.go` EqualMeta, EqualState | `ValidateModel.v` |
| `objectbase.go` Check, checkFilesAndVersions, createContentManifest, getVersionInventories | `CheckModel.v` |
| `pkg/extension/0002,0003,0004,0006,0007, pairtree, direct, direct-clean`, configuration reading/writing, path mapping of the manager | `LayoutModel.v`, `Utf8Model.v`, `PathModel.v` |
| shared hash object of direct-clean | `ConcModel.v` |
| exclusion groups and order of extensions | `ManagerModel.v` |
| content-subpath areas, `objectbase.go` Extract | `AreaModel.v` |
| `storagerootbase.go` folders, CreateObject, Init, loading; `helper.go` getVersion | `RootModel.v` |
| `validationerror.go` sort/compact, codes; `gocfl/cmd/helper.go` showStatus; `helper.go` sorted insertion | `ReportModel.v` |
| `helper.go` CleanPath, FixFilename | `CleanModel.v` |
| EndUpdate recursion with extensions that keep state; migration and filesystem extension flags | `FollowModel.v` |
| `NNNN-gocfl-extension-manager.go` StreamObject | `StreamModel.v` |
| Go's `encoding/json` (MarshalIndent with HTML escaping, scanner, unquote, struct and map decoding) as far as inventories use it | `JsonModel.v` |
| `gocfl/cmd/helper.go` addObjectByPath (lines 337-360), `objectbase.go` AddFolder, directory case of AddFile, `io/fs` WalkDir | `IngestModel.v` |
| `gocfl/cmd/helper.go` addObjectByPath (lines 305-336), `storagerootbase.go` LoadObjectByID, LoadObjectByFolder, CreateObject; sub file systems (`fs.Sub`) as path prefixes. Not modelled: findings and extensions during loading | `RootAddModel.v` |
| `objectbase.go` GetMetadata, `fixity.go` Checksums, `metadata.go`, GetMetadata of the extension manager. Not modelled: what the single extensions report (any map or an error) | `MetaModel.v` |
| `helper.go` ReadJsonL, WriteJsonL; GetAreaPath of the object, the manager and content-subpath; `NNNN-indexer.go` StreamObject, UpdateObjectAfter, GetMetadata. Not modelled: what the indexer finds out about a file (any function), errors of the dispatcher, brotli output flushed before the writer is closed | `JsonlModel.v` |
| `NNNN-migration.go` UpdateObjectAfter, NeedNewVersion, DoNewVersion, GetMetadata; `subsystem/migration` GetDestinationName, DoMigrate; GetStateFiles. Not modelled: the external command (any function of names and data), temporary files, the TOML tables (any lookup function), the buffer of a DoNewVersion that stopped with an error | `MigrateModel.v` |
| `storageroot.go` LoadStorageRoot, `storagerootbase.go` Load, LoadObjectByFolder, Check, CheckDirectory, CheckObjects, CheckObjectByFolder; `extensionFactory.go` CreateExtensions; `validate.go` for a whole root. Not modelled: what a configuration says (the factory is any function), the configuration of the layout, errors of the drivers | `RootCheckModel.v` |
| `storagerootbase.go` Extract, ExtractMeta (whole root), LoadObjectByFolder, LoadObjectByID; `extract.go` the check of the target. Not modelled: the JSON text of the metadata, ExtractMeta of one object (it is C60), errors of fs.Sub | `RootExtractModel.v` |
| `NNNN-metafile.go` UpdateObjectBefore, GetMetadata, SetParams (as a parsed value); `helper.go` ReadFile. Not modelled: URL parsing, HTTP, decoding of JSON, YAML and TOML, the schema (arbitrary functions); an unset file system of the extension | `MetafileModel.v` |
| `NNNN-thumbnail.go` UpdateObjectAfter, DoThumbnail, storeThumbnail, GetMetadata; `thumbnail.go` GetFunctionByPronom, GetFunctionByMimetype (as arbitrary functions). Not modelled: the commands themselves, temporary files, the text of errors | `ThumbModel.v` |
| `NNNN-mets.go` UpdateObjectAfter, newMDSec, checksumTypeToMets. Not modelled: XML, agents, significant properties, formats found by siegfried, dates of documents, the two nested divs of the struct maps | `MetsModel.v` |
| `NNNN-filesystem.go` AddFileAfter, UpdateObjectAfter, GetMetadata, and AddFile for folders. Not modelled: Fullpath and os.Stat (any result or error), the fields of the metadata | `FsModel.v` |
| `objectbase.go`, `inventorybase.go` addValidationError and addValidationWarning, `validate.go` for one object. Not modelled: the texts (any functions) | `CodeModel.v` |
| `objectbase.go` loadInventory with any decoder | `ForeignModel.v` |
| `gocfl/cmd/display/server.go` download, downloadExtFile, loadObjectID, loadObjectPath, displayObject, and the lookup of the object in detail, manifest, version and report. Not modelled: the HTML (a page is the identifier and the metadata it is made from), routing and binding of parameters | `ServerModel.v` |
| `inventorytypes.go`, `inventorybase.go` MarshalJSON/UnmarshalJSON, `objectbase.go` loadInventory up to Finalize | `JsonInvModel.v` |

Not modelled: logging, CLI parsing, the indexing itself, the thumbnail commands, encryption, S3/zip drivers, the pages of the display
server, Windows path separators (`filepath.*` is taken as `path.*`), non-ASCII case folding in `strings.ToLower`,
wall clock arithmetic, integer overflow, failing storage drivers (except as crash points).

### Main simplifications

* `InventoryModel`: value semantics for maps and slices (the code copies where it matters; stated at the definitions).
* `ObjectModel`: content is written in one append; hooks of AddFile are not part of the call but follow as calls of the history.
* `CheckModel`: a directory exists if a file lies below it (no empty directories, so no W003); JSON null for head or a version
  (nil dereference) not modelled.
* `LayoutModel`: configuration integers are not negative; replacement strings without `$` and line feed.
* `ConcModel`: Reset, Write and Sum of the hash object are atomic (less behaviour than the program; the refutation holds a fortiori).
* `RootModel`: directory listings are given; a folder with only empty folders counts as empty.
* `FollowModel`: files an extension writes into its own folder are left out; all queued migrations count as done afterwards.
* `JsonModel`, `JsonInvModel`: the JSON library is not in the repository and modelled from its documentation and source; numbers are kept
  as text, `fits` says which are in range; `tm` parses and reprints times.
* `StreamModel`: nobody closes the reading end of a pipe; writes to the content file are not part of the machine.

## Properties: what is modelled and how it is proved

Status and exact theorem names: `MANIFEST.json`.

| id | outcome | proof |
|----|---------|-------|
| C01 | proved | induction over histories, frame relation `ext_rel` per call |
| C02 | proved | same, manifest lists only get longer |
| C03 | proved | invariant: every state digest has a non-empty manifest entry |
| C04 | proved | direct + map lemmas |
| C05 | contiguity proved, fixed width refuted | invariant: versions are exactly 1..n |
| C06 | proved | relational spec of the head state |
| C07 | proved for absent targets, collision refuted | same |
| C08 | exact condition; refuted for delete + re-add | lookup lemmas for `AlreadyExists`/`IsUpdate` |
| C09, C10 | for histories without the offending calls; refuted in general | guarded induction |
| C11 | proved with de-duplication, refuted without | history of re-adds leaves handle and trace unchanged |
| C12 | refuted for every padded object and recorded path; new paths proved | lookup lemmas |
| C13 | proved | fold invariant over the checksums |
| C14 | string-prefix characterisation; three counterexamples | set characterisation |
| C15, C16 | clean names, all crash points; `..` refuted | classification of event paths, crash prefixes |
| C17 | proved | round trip; enumeration of crash states in Close |
| C18 | characterisation; unescaped dot refuted | string lemmas |
| C19 | both directions for every validation with a verdict; three panics/errors refuted | characterisation of the content manifest |
| C20 | refuted (E101 needs a trailing slash) | sortedness |
| C21 | exact condition (adjacent after sorting); completeness refuted | sortedness |
| C22 | equivalences; verdict iff no empty path and no missing date | per check |
| C23 | proved | sorted numbers |
| C24, C25 | for distinct / uniform version names; refuted otherwise | permutation arguments over oracles |
| C26, C27 | what acceptance implies; which metadata is compared (`C27_metadata_exact`); swapped content refuted | set arguments |
| C28-C30 | partial / proved / partial | injectivity and prefix arguments over strings |
| C31 | exact conditions per layout, all refuted in general; the characters a pairtree path keeps visible (`C31_pairtree_characters`) | string lemmas |
| C32 | exact crash condition | direct |
| C33 | three layouts proved, five refuted; defaults of an absent field and the exact chain of managers (`C33_direct_clean_defaults`, `C33_direct_clean_fixed`, `C33_chain_exact`) | record projections through the JSON object |
| C34 | proved | decoder as left inverse, induction over runes |
| C35 | UTF mode in full; replacement mode under conditions; invalid bytes are replaced (`C35_invalid_bytes_partial`) | class invariants |
| C36 | refuted; proved for one hashed path and for the program with two lines exchanged | machine invariant over all schedules |
| C37 | any sorter; refuted for repeated/shared names | permutation/sortedness |
| C38, C39 | for tidy folders / unmixed areas; default area and absolute folders (`C38_default_area`, `C38_absolute_folder`); refuted otherwise | path lemmas; induction over the callback |
| C40, C41 | for listings without the offending entries; refuted otherwise | structural induction on trees |
| C42 | nothing is destroyed (full); mapping error ignored (refuted) | frame property |
| C43 | nothing lost (full); duplicates refuted | any permutation as sort result |
| C44 | proved | binary search invariant |
| C45 | bounds and idempotence; `..` refuted | class invariants |
| C46 | terminates, at most one follow-up for extensions with done flag; refuted otherwise | measure on flags, refinement to the object histories |
| C47 | order, completeness, no deadlock, termination, error reporting; refuted after source errors | small-step invariants, progress, work measure |
| C48 | sessions with crashes keep the published inventory correct; same path twice refuted | invariant over sessions and crash prefixes |
| C49 | no false alarms: `sound_object` implies only warnings; refuted for content directory `inv` and upper-case sidecars | every check is shown to pass, stage by stage (AcceptProofs, AcceptProofs2, AcceptProofs3) |
| C50 | objects made by complete sessions are accepted; refuted without the conditions (six counterexamples) | invariant `kept` over calls, hooks, updates and sessions gives `sound_object` (PublishProofs to PublishProofs5), then C49 |
| C51 | JSON round trip for valid UTF-8, cut texts rejected for all inventories, C48 and C50 for the real text; refuted for invalid UTF-8 | the reader is a pushdown automaton; induction on the value with the text that follows (JsonProofs), decoding of the written object (JsonInvProofs 1-3), inventories of earlier versions inherit the conditions |
| C52 | each flaw of type `flaw` has its code, accepted objects have `typed_inventory` inventories; refuted for the parts whose errors are dropped (six counterexamples) | names of members: `field_spelled`; the decoder folds over the members, so a member written once determines its field (JsonTypeProofs 1-2); findings of the two Finalize runs go into the verdict (GuaranteeProofs, JsonTypeProofs3) |
| C53 | `only_warnings` of Finalize iff `sound_doc` (conflict-free documents); `only_warnings` of validate_object gives `assured` and retrieval; four counterexamples | converse of C49: absence of a finding is inverted check by check (GuaranteeProofs2), then along the validation steps of Check (GuaranteeProofs3) |
| C54 | every file is in an allowed place, content is listed by the root and the later versions; surplus folder refuted | the clauses `as_files` and `as_listed` of `assured`; warning W002 by `other_folder_warned` |
| C55 | ingest of a fresh object, load, extract = the folder; plain objects without conditions, areas that share no content; with extension hooks that change the object, also in versions of their own: every place no hook call names (`C55_hooks_partial`); three counterexamples | the walk lists every file once (IngestProofs); invariant over the AddFile calls of a request (IngestProofs2-4): what is current, what is in the manifest; extraction from it (IngestProofs5-6); path extensions (IngestProofs7); hooks: a call changes only the logical paths it names, so the view of the area outside of `T` is kept (HookProofs 1-3) |
| C56 | the same for an update: `area_after`, with or without echo deletion, also with hooks (`C56_hooks_partial`); five counterexamples | as C55, starting from any published object |
| C57 | extraction of an earlier version is equal before and after any complete session; histories of requests | `inherits` (InheritProofs): manifest entries keep their first path, states stay, content is not overwritten; induction over `archived` (IngestProofs6) |
| C58 | any number of requests, then Check: only warnings | paths recorded are those of the folders, hence clean and conflict-free (IngestProofs8), then C50 and C51 |
| C59 | sessions of objects in folders of one storage, interleaved and interrupted; histories of addObjectByPath for any identifiers | effects stay in the folder and project to each object (RootAddProofs); invariant over histories: every object is as its own requests left it, declaration and top files included (RootAddProofs2), then C57 and C58; layouts by C28 to C30 |
| C60 | GetMetadata of the object, Checksums, the joining of extension results; every loop entry takes its own map order | loop invariants as characterisations of the folded maps (MetaProofs); together with C03 for all call histories |
| C61 | WriteJsonL, ReadJsonL, GetAreaPath, BuildManifestNameVersion; brotli and gzip as functions that undo each other | path computation for each kind of configuration, then the effect of AddReader (JsonlProofs); persistence from C16 |
| C62 | the indexer: StreamObject with its buffers and its writer, UpdateObjectAfter, GetMetadata; the calls of the object with hooks; the JSON of a line as a printer and a parser | invariant on the recorded lines over all calls of a session (JsonlProofs2), induction over histories: every version has its side file and old ones stay (C57's inheritance), then the joins as folds (JsonlProofs3) |
| C63 | DoNewVersion of the migration extension with AddReader, DeleteFile, RenameFile on the inventory and the writes to storage; tools, name functions and strategies are arbitrary | the effect of each of the three calls on the newest version (MigrateProofs), one job (2, 3), then an invariant over the loop that is independent of the order (4); start of the version and the calls as a hook sequence (5). Specification: `migrated` in MigrateSpec.v, a description of the new version as a set |
| C64 | GetMetadata and UpdateObjectAfter of the migration extension; the report of C60 and the format found by the indexer as arbitrary functions | lines and versions as folds with the kept keys, exact description of the marks and of the plan (MigrateProofs6) |
| C65 | The validate command for a whole root over directory trees, with loading of root, objects and extensions and the findings per folder; objects are checked as in C49 | the folders found (C40) as a set, each folder check as a conjunction of its parts, version numbers compared as decimal fractions (RootCheckProofs to RootCheckProofs3) |
| C66 | CreateExtensions with an arbitrary factory | the loop as bind and omap over the folder entries, exactness of warnings and results (RootCheckProofs, Properties23) |
| C67 | Histories of requests as in C59, the tree of their files as any tidy listing in byte order, the validate command as in C65; Init of the root as in C42 | files of the tree and of the storage as one relation, every file is in a created object or was there at the start, so every directory with files below the hierarchy is an object; then C59 and C65 (RootFillProofs to RootFillProofs3) |
| C68 | StorageRoot.Extract with LoadObjectByFolder and LoadObjectByID over the tree of files, the sub file systems of the target as folders of it, the check of the target in the command; histories as in C67 | invariant of the loop over folders apart from each other; every folder is opened as in C67 and its extraction is C57; the area only matters through the paths of the extensions (RootExtractProofs) |
| C69 | ExtractMeta with GetMetadata as in C60; histories as in C67 | invariant of the loop with distinct identifiers; C60 for the entries; the files by C57 and C39 (RootExtractProofs2) |
| C70 | The metafile extension: SetParams as a value, UpdateObjectBefore with the object model (AddReader, emitted files), ReadFile and GetMetadata over the stored object; sources, decoding and schema as arbitrary partial functions | a session is one of C50 with one more call; the content of the file stays through the rest of the session (MetafileProofs), old versions by the frame of complete sessions, and the search finds the newest version with a text by an invariant over the history; the folder of the extension by the events of all runs, interrupted ones included (MetafileProofs2) |
| C71 | the grammar of RFC 8259 as an inductive relation between texts and values (JsonTextSpec), against the scanner of C51; order of members as a closure of exchanges | every text is read: mutual induction over the grammar with the text that follows (JsonTextProofs); nothing else is: invariant per state of the scanner over what has been read so far, and a second one for the depth (JsonTextProofs2); the decoder of inventories field by field (JsonOrderProofs) |
| C72 | The thumbnail extension: UpdateObjectAfter with its loop over the metadata report, DoThumbnail, storeThumbnail with the object model, the side file, GetMetadata over the stored object; tools, indexer results and random numbers arbitrary | the loop is a run of AddReader calls into new paths, so a session is one of C50 (ThumbProofs); the lines in the side file of every version are an invariant over the history, and the report is computed from them (ThumbProofs2 to 4); the folder of the extension by the events of the loop (ThumbProofs5) |
| C73 | UpdateObjectAfter of the mets extension over the metadata report of C60: the loop over files and names, areas of paths, packing and migration events, primary metadata, names of the documents, the calls that store them; documents as what they contain, XML, SHA-512 and UUIDs arbitrary functions | what one file adds is described (`adds`, MetsProofs), the loop concatenates it over a list of files that the report theorem of C60 ties to the version; storing is a run of AddFile and AddReader calls, later calls keep it (MetsProofs2) |
| C74 | AddFileAfter (files and folders), UpdateObjectAfter and GetMetadata of the filesystem extension with AddFile around them; what os.Stat gives, JSON and packing are arbitrary functions | records carry their version and later calls keep them (`stamped`, `keeps`, FsProofs); a session is one of PublishSpec with a side file; induction over histories keeps where the records of each version are, then the report is a filter of them (FsProofs2) |
| C75 | the effects of StartUpdate, AddFile, …, EndUpdate and Close of C15 and C48 for several handles, merged in any order (ConcurSpec) | every effect of a handle lies in its new version folder or in the root (`trace_where`, from the crash machinery of C48), so the merge has this too; a path that the others avoid ends with the bytes of the handle that writes it (`merged_own`), then the publication theorem of C50 for the closed handle (ConcurProofs) |
| C76 | addObjectByPath on an object that exists, as in C56, run several times with crash points as in C48 (RetrySpec) | the events of a request are whole files, one after the other, each created anew (`writes`); an attempt walks the same paths in the same order up to the file that it cannot open, so what it stores is a part of what the request stores (`traced`, `request_traced`); a path that the attempts wrote is created again by the request, all others were not touched (`interrupted_target`, `writes_same`), and the rest is C56 (RetryProofs) |
| C77 | addValidationError and addValidationWarning of object and inventory, GetValidationError, showStatus, validate.go for one object (CodeModel, ReportModel), on top of the whole validator (CheckModel) | the codes of all findings of `validate_object` lie in a list of 49 codes, by a compositional argument over all checks (`tame_object`, CodeProofs); the tables are compared with this list; then C43 and C53 |
| C78 | loadInventory and Finalize for any decoder (ForeignModel, ValidateModel), LoadInventory (LoadModel), Extract (AreaModel), the whole validator (CheckModel) | acceptance gives content for every digest of every state (C53 and the checks of one inventory), and this makes every step of the extraction succeed (ForeignProofs); the content by the invariant of C39 |
| C79 | the model of C78 together with the object handle of C01 to C16 (ObjectModel) and Close (C17) | acceptance gives what C01, C02 and C16 ask of an inventory: versions v1 to the head, a plain content directory, content below the version directories; an invariant over any number of handles (ForeignProofs2) keeps versions, manifest entries and files of old versions |
| C80 | the handlers of the display server that find an object and deliver a page or a file, as steps that may alternate; LoadObjectByID, LoadObjectByFolder (C68) and GetMetadata (C60) | invariant: object and metadata held by the server belong together (requests one after the other), or both belong to the one identifier (requests at the same time); schedules as witnesses for the refutations |
| C81 | the models of C49 (validator), C50 (complete sessions) and C78 (loader) together; the sessions start from what the loader returns for the bytes of another program | the rules of C49 and the plain style are kept by a complete session (ContinueProofs to ContinueProofs3): the new inventory keeps the old versions and manifest entries, the new files are listed; induction over the sessions; two accepted objects with digests in upper case as witnesses for the refutations |
| C82 | LoadInventory and Load with a storage driver that answers with bytes, a missing file or another error (UnreadModel); the sessions are those of the object model on the handle that Load returns | invariant of histories (UnreadProofs): without digest algorithm no digest can be computed, so the only effect of a call is the creation of the content file before its digests; the path of it from the session invariant of C16; a valid object with an unreadable inventory as witness for the refutations |
| C83 | the validator of C49 with a driver that may fail when inventories and digest files are loaded (UnreadCheckModel) | the empty inventory of the root has no versions, so every version folder is an E001; the empty inventory of a version brings the digest algorithm with the empty name into createContentManifest, which fails on the first file; an unread digest file is an E060; without such failures the model is equal to the validator of the other properties |
| C84 | Stat of objects and storage roots, the words of --stat-info (StatModel); output lines are constructors with their texts, the JSON texts of configurations are given | a reader of the output (StatProofs `under`, `files`) recovers the versions and their files; induction over the loops, for all orders; `_refuted` witnesses for the four deviations |

## Findings

Each is a theorem (`_refuted`, or a clause of a `_partial`) unless marked (read).

Updates (C05-C14, C46)
* Padded version names overflow their width (v0100 after v099 with padding two).
* Renaming onto an existing path lists it under two digests.
* A file deleted in one version and added again with the same content is lost: AlreadyExists looks at the newest version that lists it.
* A de-duplicated update to content that is already stored keeps the old entry: the path is listed under two digests.
* Adding a path twice in one version overwrites the stored content of the first digest; the first digest stays in the manifest.
* Adding several names for one content lists the content path several times.
* Re-adding unchanged content without de-duplication writes a content file that no published inventory lists.
* In padded objects re-adding any recorded path fails ("could not get checksum": the name is built without padding).
* Echo mode: an update consisting of deletions only is not stored; the area prefix has no slash, so `data` also hits `data2`;
  EndArea followed by EndUpdate deletes what was just added.
* An extension without a done flag makes EndUpdate recurse for ever; a failing extension in DoNewVersion leaves the flags of later
  extensions down, so they ask again at every EndUpdate; after its one follow-up the migration extension ignores later updates on the handle.

Storage (C15-C18, C42, C48, C51)
* Path names with `..` reach the root inventory and earlier versions before Close.
* The digest file expression has an unescaped dot.
* CreateObject ignores the error of the path mapping and creates the object under its raw identifier (also `../x`), where it is not found again.
* A file whose name is not valid UTF-8 is stored under its name but recorded with U+FFFD instead of the bad bytes: after the next load the
  content is missing, and the validator reports E092 and E023 (C51).
* Unsupported fixity leaves the declaration behind, so that a second attempt fails.

Writer against validator (C50): calls that succeed and leave an invalid object
* An update without changes uses up a version number: if another update follows on the same handle, the published inventory has a version
  whose folder does not exist, and validation panics. The same happens if Close comes without EndUpdate.
* Files added after EndUpdate and before Close are in the root inventory but not in that of the version (E064, E066, E023).
* Renaming to a path below a file (E095) or to the empty path (validation panics) is accepted, and so is adding a path twice (E092).

Validation (C19-C27, C43)
* Missing version folder, v1 without inventory, missing `created`, empty path, content path without slash: panic. A fixity algorithm only in the root inventory: error.
* E101 is never reported for ordinary paths; E095 is hidden by a name such as `a-b` between `a` and `a/b`.
* E040 (v1 and v01), E011/W001 (v1 and v002) depend on the map order.
* A content directory whose name begins `inventory.json.sha512` (such as `inv`) makes the validator report the inventories of the versions (E023):
  content is recognised by a string prefix without slash. A digest file in upper case is reported (E060).
* JSON type errors are dropped (C52): a number as content directory, fixity block, list of fixity paths or (without content) manifest is accepted, so is
  a version without state and a user without name; the error of Unmarshal is looked at only to see whether the head is a string.
  Member names are compared ignoring case, but `Type` is not found; of two members the last one counts. A null head or version, or a number as a
  version, panics.
* Accepted with warnings or none (C53, C54): a digest with an empty list of content paths while its file lies elsewhere (the logical file cannot be
  retrieved), content outside of the content directory, a newest version without inventory, surplus files in a folder `con` beside `content`.
* isEqual and EqualState accept swapped content; isEqual is not symmetric (compares a length with itself).
* The comparison of findings is inconsistent; duplicates can survive; the concatenated key is ambiguous.
* E068 and E086 are unknown in version 1.1 and become E000.

Layouts (C28-C37)
* 0003: bytes below 16 are escaped with one digit, identifiers collide. Empty identifier (0003) and a short root that uses up the
  digest (0004) give an empty last element.
* 0002, 0006, pairtree, direct-clean nest or collide objects; pairtree's rareChars has the letter c where the comma belongs.
* 0007 panics unless zeroPadding is left or right.
* 0003, 0004 and pairtree are dropped after a reload, 0006 loses its delimiter, 0007 panics: WriteConfig writes only the name.
* direct-clean: empty replacement turns `.../etc` into `../etc`; forbidden characters in the replacement pass; too many fallback tuples panic;
  the digest is read after the mutex is released.
* pairtree and direct-clean write the names of other layouts in WriteLayout (read).
* Exclusion groups with a repeated or shared name keep too few or too many extensions.

Storage roots and extraction (C38-C41)
* Area folder `./data` is not found again; areas `content` and `content2` leak into each other.
* Extract stops at the first path of another area within a digest; remaining files, also damaged ones, are silently skipped.
* `data/a` and `dataa` clash; the manifest file overwrites an extracted file of that name.
* Directories listed before files make version folders look like objects; the declaration expression is not anchored; object version 7.3
  is loaded as 1.0; a storage root without declaration is loaded.

Objects in a storage root (C59)
* Flat layout: an object for `a/b` is created inside the object `a`, which is invalid from then on (E001); in the other order `a` cannot be created.
* Flat-omit-prefix: LoadObjectByID does not compare identifiers. A request for `y:1` becomes version 2 of the object `x:1`; success is reported.
* In a 2.0 root objects are declared 2.0 but get 1.0 inventories (newInventory knows only 1.1); the validator does not notice.

Ingest (C55, C56, C58)
* AddFolder drops the error that WalkDir hands to it: a directory that cannot be read is left out and success is reported; with echo deletion
  its files are even deleted from the new version. An unreadable source makes the call panic (IsDir of a nil entry).
* Content that is in two areas is missing in one of them after extraction.
* A file that was deleted and comes back with its last content is not added (NewVersion's AlreadyExists looks at old versions).
* With de-duplication a file that changes to content stored already is listed under both digests; its extraction may give the old content.
* A request that only deletes (echo) writes nothing: EndUpdate looks at the modified flag before echo deletion.
* BeginArea and EndArea are never called, so echo deletion covers the main area only, and all areas whose folder begins with its folder.
* An update without echo deletion that brings a directory `a` where the object has a file `a` succeeds and leaves an invalid object (E095).
* De-duplicated files skip the AddFileBefore/AddFileAfter hooks (read). addObjectByPath asks ObjectExists(flagObjectID) but loads and creates `id` (read).

Metadata (C60)
* Adding a path twice in one version leaves two fixity digests for its content path; which one is reported depends on the map order.
* Fixity digests are looked up for the first content path of a digest only; those of later paths are never reported.
* One failing extension, or one failing object, makes the whole report fail (storage root report: read).

Side files and indexer (C61, C62)
* WriteJsonL compares the storage type in lower case, ReadJsonL does not: with `Area` everything is written and nothing is ever read.
* Storage type `path` with content areas: the writer goes through the default area again and writes to `content/data/data/...`, the reader looks
  in `content/data/...`. Without content areas the logical path begins with a slash, which makes the object invalid.
* An empty storage name means the default area for the writer and an error for the reader.
* A version in which no file is streamed (only renames, deletions or de-duplicated files) has no side file; from then on GetMetadata of the
  indexer, and with it the report of the object, fails.
* A path added twice in one version: both results have the same content path, and the result of one content is reported for the other.
* After UpdateObjectAfter the writer stays closed: a second update with the same handle fails if nothing is streamed, and every hooked add
  of a later extension fails if the indexer has a result for it.
* A line whose path is not in the manifest is reported for the empty digest, i.e. for the object (read).

Migration (C63, C64)
* A content that was planned but has no file any more: its state list is empty and DoNewVersion panics with an index out of range.
  As read in the code, UpdateObjectAfter plans all contents of the manifest, also those that were deleted long ago.
* One planned file outside of the default area makes DoNewVersion, and with it the update, fail.
* Two contents with the same target name and the strategy replace: both originals are deleted, one of the converted files is missing.
* A target name that was once deleted with the same content: AddReader sees it as already existing and does not add it, and the original is
  deleted; the new version has neither.
* A file that happens to have the target name is replaced without notice.
* The strategy folder on a file that is itself a migration result renames it to the empty logical path.
* A handle migrates once: contents that a second update with the same handle brings are planned, but never converted (C63_once).
* A content with several names: the manifest lists the new content path once per name.
* GetMetadata keeps the results by the digest of the converted file. If two contents give the same data, one of them is forgotten and
  planned again with the next update; with the strategy replace this is the panic above.
* A side file line about a path that is not in the manifest makes GetMetadata fail (as read in the code, with it
  the report and UpdateObjectAfter).

Validation of a storage root and extensions (C65, C66, C67)
* If the check of one object ends with an error (for example a fixity algorithm that only the root inventory names) or panics, validation of the
  whole root ends: later objects are not looked at, and the findings so far are not shown, because showStatus is only called without error.
* Two objects with the same identifier are accepted, and identifiers are not compared with the folders that the layout gives.
* Empty directories in the storage hierarchy are accepted (E073). A file in a directory of the hierarchy (E072) is reported as an object without
  declaration, and hides the objects that are listed after it.
* LoadStorageRoot calls CreateExtensions without a validation object; the warning about an extension that cannot be created is then a nil
  dereference: one unknown extension in the extensions folder of the root makes every command panic. In an object it is a warning.
* An extensions folder with the manager but without `initial` cannot be loaded ("cannot add extension to itself"); the object is then only reported
  as E001.
* SetExtension of `initial` changes its own name instead of the manager, so that another manager in the folder `initial` never becomes the manager.
* The exit code of validate is always 0 (read).
* No layout excludes the folder `extensions`: with the flat layout an object with the identifier `extensions` is created without error and valid
  alone, its version folders are then taken for unknown extensions of the root, and every later load of the root panics (C67).

Extraction of a storage root (C68, C69)
* Extraction of the whole root ignores the requested area: always the default area is extracted.
* One object without the requested version, or with one damaged file, ends the extraction of the whole root; the objects after it are not written.
* The metadata report is keyed by the identifier: of two objects with the same identifier one is lost without notice.
* Stat prints the configurations of the extensions twice for a whole root (read).

Descriptive metadata (C70)
* Giving metadata again that is there already, in an update without other changes, leaves a file in the folder of a version that does not exist. All calls succeed; the object was valid and is now reported with E001 and E046.
* A handle without the metadata parameter panics in StartUpdate (the nil check comes after the dereference).
* A second update with the same handle ignores the source, also if the first one failed because the source could not be read: it succeeds without the metadata.
* Storage types that are not in lower case are written but never read; with content areas the type path has the folder twice. The metadata is stored and the report fails.
* Metadata that is not a JSON object is accepted and stored, the report fails from then on.
* A URL with a query is refused, because the file name extension is taken from the whole URL. The HTTP status is not looked at (read).
* In the folder of the extension the file is replaced when the update starts: an update that is not finished already replaces the metadata of the published versions, and older metadata is not kept.
* A source without scheme is always looked up from the root of the disk, also a relative one (read).

Thumbnails (C72)
* storeThumbnail takes two hexadecimal digits of a random number below 64 that is printed without padding: with SingleDirectory off, which is the default, one thumbnail in four panics.
* The report puts the path of the area before a file name that has it already: the file that is reported for a source does not exist. The entry under the digest of the thumbnail has the right name.
* A failure is recorded and counts as done: the file is never tried again, also not if the tool works later. The report invents a file name for it.
* With a storage type that is not in lower case the thumbnails are stored but the side file is not found, so that every update stores all of them again.
* Stored in the folder of the extension, a thumbnail has no digest in its record, and the manifest does not cover it (as modelled in `th_store`).

METS and PREMIS (C73)
* The loop compares the second element of a content path with the constant content. With another contentDirectory it returns errors.Wrapf of a nil error, which is nil: no documents, no error.
* CHECKSUMTYPE of files is always SHA-512, also in objects with sha256. The reference to PREMIS asks checksumTypeToMets for SHA-512, which knows only SHA512, so that its CHECKSUMTYPE is empty.
* The internal reference to PREMIS lacks the version and content folders: no file has this path.
* With storage type extension the METS text is written into the PREMIS file; the PREMIS document is lost.
* A metadata file with the content of a content file adds its identifier to the struct map as content, but there is no such file or section. Two content paths of a metadata file give two sections with the same ID.
* Without content-subpath a content folder called metadata is left out of the fileSec. An area path of two elements never matches: its files are listed as content.
* The configuration of a new extension has metadata:info.json as primary metadata. The word before the first colon is the type, so the file is looked for in the content area; the update fails.
* Storage type path puts the path of the content area before a name that gets it again: data/data/metadata/mets.xml.
* Metadata files have packing events without an object. Groups that are not one of the known ones all get the ID `uuid-`; mimetypes of metadata are empty; files that later hooks add are not listed (as read in the code).

Metadata of the source file system (C74)
* AddFile returns before the hooks if the content is already in the object: such files have no metadata.
* The first empty file that stands for a folder is stored with AddReader and recorded under the path before the mapping of the content areas, the others under the path after it. With areas the metadata of the first folder is not reported.
* The other empty files are made with CopyFile, which does not note the path as updated: echo deletion removes them in the session that adds them.
* Records are joined to digests by path at the end of the session. If a file is renamed and another one gets its path, the report gives the metadata of one to the content of the other.
* A second update of the same handle in which no file is stored fails as for the indexer (C62): the writer is closed twice.
* A version whose side file cannot be read is left out of the report without a message; a version whose side file has a bad line makes the whole report fail (as read in the code).

Handles open at the same time (C75)
* There is no lock and no check that the stored inventory is still the loaded one. Of two handles that are opened on the same version, the one that is closed last replaces the version of the other: its files are in no version, and their content stays behind, which makes the object invalid (E023).
* Close writes inventory and digest file one after the other; two Close calls at the same time can leave the inventory of one with the digest of the other (E060).
* Content is written straight to its final path. A handle that is never closed can replace the content (E092) or the version inventory (E064) that another handle has published in the meantime.

Repeated requests (C76)
* A request that fails or is interrupted leaves its folder of the next version in the object, which is invalid until a later request is published (E001, E046). Nothing removes it.
* A later request writes into the same folder. What it does not store itself stays there: a file that was taken out of the source in between, or a file that is stored below another area because the map order of the areas was another one. The published version then has content that is in no manifest (E023), and success is reported.
* An object whose creation failed has a declaration but no inventory: ObjectExists says yes, loading fails, so the same identifier can neither be created nor updated until the folder is removed by hand.

The report about an object (C77)
* The validator does not look at the version of the object: objects of version 1.0 are checked by rules of version 1.1 (E103, E107). The table of version 1.0 does not know these codes, and the report says E000, unknown error. Version 2.0 uses the table of version 1.0.
* An error value of the check (for example an unknown digest algorithm) suppresses the whole report, also the findings before it. The exit code of the command does not depend on the check (validate.go only logs and returns; not modelled).

Reading accepted objects (C78)
* The validator compares digests in any case, Extract compares them as written: an object with digests in upper case is valid and cannot be extracted.
* A digest with an empty list of content paths is accepted and stops the extraction of all files.
* A logical path under two digests of one version is accepted (the rules for paths only look at directories). Which content is extracted depends on the map order.

Updating accepted objects (C79)
* If a digest has no content path, a version that could not be extracted becomes readable when a later update adds the content: the extraction of an old version changes.
* A name with dots reaches the content of old versions, also in objects of other programs, and makes them unreadable (as C16).

Objects of other programs that are updated (C81)
* Digests are compared exactly when content is added, but without case by the validator. If the fixity block of an accepted object has a digest in upper case, storing the same content again gives the digest in both spellings, and the object has E097.
* If the manifest has the digest in upper case, content that is already there is not recognised and is stored again; the manifest then has one digest in two spellings. The validator accepts this.

Inventories that cannot be read (C82)
* If reading inventory.json fails with an error that is not fs.ErrNotExist, LoadInventory returns an empty inventory instead of the error (objectbase.go:290-296). Load succeeds, and the object seems to be new.
* An update of this handle without de-duplication truncates content files of version 1 that have the names of the added files before the addition fails (objectbase.go:658 comes before the digests). The stored content is lost. With de-duplication the call fails earlier and nothing is touched.
* The validator does not report the failed read itself. It finds version folders that the empty inventory does not list (E001, E046), or fails on an unknown digest algorithm (C83). A directory without version folder is accepted.

Statistics (C84)

* The line `Path:` of the statistics of an object shows the digest algorithm; the folder is not shown (C84_path_refuted).
* `--stat-info ObjectManifest` and `ObjectVersionState` show nothing unless ObjectVersions is named too (C84_selection_refuted). ObjectFolders, Extension and ObjectExtension have no effect (C84_without_effect).
* The statistics of a storage root end with the first object that cannot be loaded (C84_unloadable_refuted).
* Without a named object, the configurations of the storage root are shown twice (C84_root_configs).

Display server (C80)
* All requests share s.object and s.metadata without a lock. A download for one object delivers the content of another one, with another digest, if that one is asked for in between.
* Two requests at the same time can leave the object of one and the metadata of the other. From then on, until another object is asked for, the server shows wrong pages and refuses content that is stored.
* downloadExtFile does not test its path: with dots it delivers any file of the object.
* If two folders hold the same identifier, the object that is delivered depends on the pages visited before.
* The loaded object is never read again: content added by another process is refused until another object has been asked for.

Other (C45, C47)
* CleanPath keeps `..`, backslashes, and may return the empty path; FixFilename makes `-/etc/passwd` absolute. Both are not called (read).
* After a source error the stream extensions see a clean end of file and their errors are lost; an extension that ignores the end of file
  blocks the ingest.

## Mutation tests

`tools/mutate.py` edits one definition in a scratch copy (`/tmp/mut`), rebuilds, admits the proofs that fail *in the copy* and asks for the
assumptions of every property theorem; those that now depend on an admitted proof are the `theorems_failed` of the line in
`seeded/LOG.jsonl`. A theorem in that list has lost its proof, which is not always the same as being false: a proof script may also
break for syntactic reasons. A mutant with an empty list is a survivor and is inspected by hand: either the theorems were
tightened (`tightened`), or the mutant is equivalent for the claim (`note`). Mutants are in `seeded/mutants`.
