# Formal model of datalad/metadata-model: design

The subject is the Python package in `/repo/dataladmetadatamodel`.  It keeps
metadata objects (metadata, file trees, dataset trees, root records, version
lists, uuid sets) in memory, loads them lazily from a git repository (a
*realm*) and writes them back as git blobs, trees and references.

The model is written in Rocq (Coq 8.16.1), in `rocq/theories`, logical name
`Verif`.  The properties are in `properties.jsonl`, the theorem(s) for each of
them in `MANIFEST.json`.

## 1. The model

| file | what is modelled |
|------|------------------|
| `Base.v` | Python strings (lists of code points), insertion ordered dictionaries, `split`, `join`, `splitlines`, decimal numbers, exceptions as values |
| `Path.v` | `metadatapath.py`; `PurePosixPath` parsing (Python <= 3.11) |
| `Json.v` | `json.dumps`/`json.loads` with default arguments |
| `Refs.v` | `mapper/reference.py`, the version check of `__init__.py` |
| `Meta.v` | `metadata.py` (values), `metadatasource.py`, Python's `==` on JSON values |
| `GitText.v` | text formats on the border to git: UTF-8, C-style quoting, `mktree` input, `ls-tree`/`cat-file -p` output, object headers; the Python code that writes and reads them (`subprocess.py`, `treeupdater.py`) |
| `Sha1.v` | SHA-1, used to run concrete cases only |
| `Git.v` | git repositories and commands; Python functions as programs that issue commands; `subprocess.py`, `localcache.py` |
| `State.v` | the state of one Python process: heap of objects, module level variables |
| `BlobCache.v` | `gitblobcache.py` |
| `Lock.v` | the backend lock of `utils.py` |
| `TreeUpd.v` | `treeupdater.py` |
| `ObjRef.v` | `objectreference.py` |
| `Objects.v` | `modifiableobject.py`, `mappableobject.py`, `mtreenode.py`, `mtreeproxy.py`, `filetree.py`, `datasettree.py`, `text.py`, `metadata.py` (state), `metadatarootrecord.py`, `versionlist.py`, `uuidset.py`, `mapper/mapper.py`, `mapper/__init__.py`, all mappers of `mapper/gitmapper` |
| `Common.v` | `common.py` |

Every definition cites the file and lines that it models and states where it
simplifies.  These files contain no proofs.

Other files:

* `Spec_*.v`: the vocabulary of the theorem statements.  It describes what a
  user sees (content along a path, what a repository stores under a reference,
  finite maps, sessions) and does not use the functions of the model that are
  being specified.
* `*Facts.v`: lemmas and proofs.  `HeapCase.v`, `CaseFacts.v`, `ContentCase.v`,
  `OutcomeCase.v`:
  decision procedures used by the concrete cases.
* `Props_*.v`: the property theorems (each proved by `exact lemma`), next to
  each a concrete case that meets its hypotheses, and `Print Assumptions`.

### Modelling decisions

* **Strings** are lists of Unicode code points (`list N`); bytes are lists of
  numbers.
* **Exceptions** are values; a failing call keeps the state reached at the
  failure point (no roll back), as in Python.
* **Programs.**  A Python function is a program that issues git commands at the
  `subprocess.run` border.  The meaning of the commands (`Git.git`) is separate.
  The same program is run alone (`exec`), stopped after any command (`trace`:
  crash points) or interleaved with any number of other processes (`Rely.v`).
* **git** is an external program.  A repository is a finite map from object ids
  to blobs and trees plus a finite map of references.  `hash-object`, `mktree`,
  `cat-file`, `show`, `ls-tree`, `update-ref`, `init`, `fetch` are modelled by
  their documented effect, including their input and output text.
* **SHA-1** is a parameter (class `Env`) of which only the output format is
  assumed.  Storing an object under an id that is taken by a different object
  makes the modelled command fail.  Theorems about successful calls therefore
  need no assumption on collisions; the ones about failing calls say what else
  can fail.
* **Python sets** are iterated in an arbitrary order (`set_order`, a parameter
  of which only "some permutation" is assumed).
* **The hypotheses in `Env`** are fields of a class, so they appear as premises
  of each theorem.  `real_env` and `check_env` (a cheap checksum) show that
  the class has instances; the concrete cases use them.
* **Python's stack** is the `fuel` argument of functions that follow the object
  graph; running out of it is `RecursionError`.  Theorems hold for every fuel.
* **Floats** are identified with their `repr` literal (CPython guarantees that
  `float(repr(x)) == x`).
* Time stamps supplied by `time.time()` are arbitrary inputs.

## 2. Properties and how they are proved

| id | modelled by | proof |
|----|-------------|-------|
| C01 | `Path.v` | induction on the argument list / characters |
| C02 | `Path.v` | split/join inversion lemmas |
| C03 | `Path.v` | false of the code: `_refuted` witnesses; relative operands proved |
| C04 | `GitText.v` | inversion of the three codecs, induction on bytes |
| C05 | `GitText.v` | injection refuted by a name with a line feed; entry count proved for the rest |
| C06 | `Json.v` | mutual induction on JSON values, parser fuel bound |
| C07 | `Json.v`, `GitText.v` | dumped text is printable ASCII, hence splitlines/join identity |
| C08 | `GitText.v` | full statement refuted; characterisation of the result proved |
| C09 | `Refs.v` | C06 + case analysis |
| C10 | `Meta.v`, `Refs.v` | case analysis on all documents |
| C11 | `Meta.v` | C06 + induction on the containers |
| C12 | `Meta.v` | refinement of a finite map, induction on call sequences |
| C13 | `Meta.v` | refuted (TypeError with two configurations); exact outcome proved |
| C14 | `Meta.v` | C06 + case analysis |
| C15, C16 | `Objects.v` | induction on the path over heaps of which any part is unloaded |
| C17 | `Objects.v` | induction on fuel/tree; refuted for unloaded trees, what is listed is characterised |
| C18 | `Objects.v` | as C15; "can be written" refuted |
| C19 | `Objects.v` | refinement to a path map |
| C20, C21 | `Objects.v` | refinement to finite maps; C21 refuted for unloaded sets, proved for loaded ones |
| C22 | `Objects.v`, `Common.v` | case analysis over the modifying calls; an invariant of all calls that do not write; induction over their sequence |
| C23, C24, C25 | `Objects.v` | relation between heap, repository and content (`Spec_Look.v`); induction on fuel, invariants kept by loading, editing, writing and purging |
| C26 | `Objects.v` | direct |
| C27 | `Objects.v` | refuted (individually written children, shared records); positive: a history of any events (create, open, look, load, unload, change any loaded part, write, restart, other processes adding objects) with one repository keeps an invariant over all root objects (pairwise apart, complete, of one realm), and the content of every root changes as the plain values of `Spec_History.v` say; a write stores that content |
| C28 | `Objects.v` | invariant over arbitrary sessions, refinement to a map of paths |
| C29, C30 | `Objects.v` | invariant over all states between git commands |
| C31 | `Objects.v` | invariant that no command that writes names a remote realm |
| C32 | `Objects.v` | relation between heap and content, induction on fuel; refuted for tree version lists (C49) |
| C33 | `BlobCache.v` | invariant, induction on operation sequences |
| C34 | `Objects.v` | refuted by runs; objects that share nothing with the written one are proved to be unharmed if no cache stays registered (frame of every outcome of a write) |
| C35 | `Objects.v` | refuted by runs for objects without entries; for all others induction on fuel, with a store that has every object of the run (no two with one id); for histories: unloaded objects of tidy graphs are marked as saved or refer to nothing, and unshared paths visit each object once, so they are no longer than the number of objects |
| C36 | `TreeUpd.v` | induction on tree depth, with other processes running |
| C37 | `ObjRef.v` | C36 + sharding injectivity, induction on histories |
| C38 | `ObjRef.v` | invariant over all intermediate states |
| C39 | `ObjRef.v` | rely-guarantee over interleavings of any number of processes |
| C40 | `Lock.v` | induction on well nested traces |
| C41 | `Objects.v`, `ObjRef.v` | invariant over any sequence of writes and flushes (which may fail): every id mentioned in a document of the repository (or waiting in the blob cache) is in the reference tree or remembered for the next flush; then induction over the path to an object; the exception, records reachable only from version lists, is refuted (`Spec_Gc.v`) |
| C42 | `ObjRef.v` | refuted by a run; single realm version proved |
| C43 | `Common.v` | relation between states: what may be added; every part of the call extends the state, and does nothing when the entry is there; an invariant on objects that are in memory or can be loaded from the repository under which every part returns and which every part keeps (`Spec_Demand.v`) |
| C44 | `Common.v` | refuted by a run; that only existing records are registered follows from C43 |
| C45 | `Common.v` | refuted by runs; with both references a refinement between the two opened objects and the stored contents; with one missing a look-up without creation returns nothing and changes nothing |
| C46 | `Objects.v` | refuted for every tree and absent path; for the others the effect on the content |
| C47 | `Objects.v` | refuted by runs; for objects of one realm, yes means that the repository holds the content |
| C48 | `GitText.v`, `BlobCache.v` | equality of hashed byte strings |
| C52 | `Common.v` | refuted by runs with the reserved name as a part of a path; for other paths induction on the sequence of calls with the invariant of C43 |
| C53 | `Common.v` | refuted by a run; new records follow from C43 |
| C54 | `Common.v` | refuted by a run of three processes; records that a call makes are one object for both ways, from C43 |
| C55 | `Common.v`, `Objects.v` | open the top nodes, follow the call with the invariant that both are in memory or can be loaded, state each step as an exact change of content, write back with C24 and C30 |
| C56 | `Common.v`, `Objects.v` | refuted by a run in which a process stops between its two writes; otherwise induction on the sequence with C55; a found record by following the call without additions |
| C57 | `Objects.v` | refuted by runs; otherwise from C24 for the element, the frame of a write and the frame of a purge (only objects below the element change); that the calls return: C35 and C51 for the element |
| C58 | `Objects.v` | the invariant of C27 and that loading does not change contents; each getter is followed with what it loads |
| C49, C50, C51 | `Objects.v` | refuted by runs; C50 proved after loading, C51 for records with dataset level metadata |

Where the full statement is false of the code, the theorem `…_refuted` gives a
concrete run of the model and a `_partial` theorem (or another theorem named in
the manifest) proves the part that holds.

## 3. Trusted base

* The Coq 8.16.1 kernel, including its virtual machine (`vm_compute` is used for
  concrete cases and witnesses).
* Axioms: none.  `Print Assumptions` follows every property theorem in
  `Props_*.v` and answers `Closed under the global context` for each of them.
  `coqchk` lists `Coq.ssr.ssrunder.Under_rel.*` because std++ loads the ssreflect
  part of the standard library; they are the parameters of a module that the
  library itself instantiates, no theorem depends on them.  No axiom is added,
  no kernel check is switched off, functional extensionality is not used.
* Libraries: the standard library and std++ (definitions and lemmas only).
* The faithfulness of the model, i.e. what the comments that cite the code say.
* The behaviour of git and of the Python standard library, as modelled.  In
  particular:
  - git aborts on a hash collision;
  - local git commands on a URL (`https:`, `ssh:`, …) fail;
  - `mktree --missing` accepts missing objects but checks the type of existing
    ones, and takes one entry per line;
  - `update-ref` fails if the object does not exist and is atomic;
  - `fetch` copies the requested object with everything below it, or fails.

## 4. What is not modelled

* `_version.py`, `log.py`, `tools/` (a command line client) and all logging.
* Failures of Python itself: memory, signals, `UnicodeError` while decoding
  the *error* output of a failing git command.
* Files: the temporary directory of the blob cache is represented by the content
  of its files; the lock is the pair `LockAcquire`/`LockRelease`; the local
  cache of remote repositories is a repository whose name is computed as in
  `localcache.py`.
* Normalisation of realm names (two spellings of one directory are two
  repositories), other revision expressions than ids and reference names.
* Threads within one process; `GitBlobCache.__del__`; generators that are only
  partly consumed; views of dictionaries (copied).
* Sharing of JSON values: a caller that mutates a configuration after handing it
  over; Python's identity shortcut in `==` on containers (matters for NaN).
* Corruption of a repository and `git gc` during a run; the theorems about
  object references say what `gc` would keep.
* Forms of UUID text other than hexadecimal digits with hyphens; elements of a
  tree version list that are not dataset trees in `common.py`.  Both end with the
  distinguished result `Unmodelled`, which is no Python exception.
* Python's recursion limit in `json` and in `treeupdater.py`.
* Backends other than git (the package has no other).

## 5. Facts about the code found on the way

These are witnessed by `_refuted` theorems, or noted where the model shows them
and no property speaks about them:

* `flush_object_references` treats any `RuntimeError` while reading the existing
  reference tree as "no tree" and starts with an empty one (C37 therefore assumes
  that the tree can be read).
* A destination `""` falls back to the realm of the object (theorems about
  writing assume a destination that is not empty).
* A write that fails half way leaves written children marked as saved.
* A root record with identifier or version `None` is written as text `"None"`;
  the identifier cannot be read back.
* An empty file tree inside a root record is read back as absent.
* A `TreeVersionList` is written with class name `VersionList` (C49).
* The copy of a `Text` object gets no content (`text.py` 39-46); git then stores
  what it reads from the standard input of the process.
* `set_version_list` modifies an unloaded set, which can not be loaded any more
  (C21).
* `get_metadata_root_record_from_top_nodes` puts the same record object into the
  dataset tree and into the version list of the dataset (C27, C41).
