# Formal model of jpylyzer: design

Subject: `/repo/jpylyzer/*.py` (openpreserve/jpylyzer, version 2.2.1), read as text.
Tool: Coq 8.16.1.  Everything is under `rocq/theories`, built with
`coq_makefile -f _CoqProject -o Makefile && make -j4`.

## 1. Approach

jpylyzer is a pure function from (bytes, options) to an element tree, apart from
file access and warnings on stderr.  The model is therefore a set of total,
computable Gallina functions, one per Python function, that

* read bytes (`list byte`) with Python's slicing semantics (negative indices and
  clamping included, because the code does compute negative offsets),
* build the same element trees (`tests`, `characteristics`, `warnings`) in the same
  order, with the same tags and the same *typed* texts (int, float, bytes, str, bool),
* make Python exceptions explicit (`res A := Ok a | Raise e | Diverge`),
* run unbounded `while` loops on a step budget ("fuel").  `Diverge` means "budget
  exhausted"; non-termination is stated as "Diverge for every budget", termination as
  "not Diverge for every budget above a bound",
* run the mutual recursion of box validators on a `depth` argument that *is* Python's
  recursion limit (exhaustion is `Raise RecursionError`, as in CPython), and is
  universally quantified in the theorems.

Floats are modelled exactly (`PyFloat.v`): binary64, round to nearest even, for
`int/int`, `float*float`, `float/float`, `round(x, n)`, `math.ceil`, `int(x)`,
`repr(x)`.  No axioms are needed for this.

Things supplied from outside the package are parameters of the model (fields of the
record `env`, or section variables closed by the theorems), never axioms: the XML parser
(`ET.fromstring`), Unicode categories (`unicodedata.category`), `str.isspace`,
libm `pow(10.0, n)` for negative n, the int-to-str digit limit of Python >= 3.11,
the file system (`os.path`, `glob`, `os.walk`).  Theorems hold for every choice of them.
For the file system there is an instance as well (`PosixFS.v`: trees of directories and
the text of CPython's `posixpath`, `glob`, `fnmatch` and `os.walk`), used by C72.

## 2. Files

Model (definitions only, each with file:line citations):
`Py.v`, `PyFloat.v`, `ByteConv.v`, `Shared.v`, `ETree.v`, `BV.v` (BoxValidator
class core), `VBoxes.v` (leaf boxes), `VMarkers.v` (marker segments), `VSuper.v`
(superboxes, codestream, tile parts, dispatch), `Remap.v`, `CheckFile.v`, `Mix.v`,
`Main.v`, `Serial.v` (the writers of XML), `PosixFS.v` (path functions, glob and walk),
`Argv.v` (the command line: argparse as jpylyzer uses it).

Specifications (independent of the model; they use only the data types of the
model, `slice`-free byte access, and each other):

| file | contents |
|---|---|
| `Spec.v` | big-endian values, subsequences, bits |
| `SpecText.v`, `SpecNum.v` | UTF-8, decimal texts, exact rational values of reported numbers |
| `SpecBox.v`, `SpecMarker.v`, `SpecIPL.v` | what each leaf box, marker segment and packet-length list has to satisfy |
| `SpecRun.v`, `SpecWalk.v`, `SpecSuper.v`, `SpecCS.v`, `SpecFile.v`, `SpecTop.v` | division of a file into boxes, of a codestream into segments and tile parts; tests of superboxes, codestreams and files |
| `SpecValid.v` | `file_ok`, `codestream_ok`: the complete description of accepted inputs |
| `SpecMake.v` | a parametrised family of conforming files |
| `SpecNames.v`, `SpecIcc.v` | documented names of codes; ICC.1 profile header |
| `SpecMix.v`, `SpecMixXmp.v` | what MIX output says about the file |
| `SpecFS.v` | directory trees, paths in them, file name expressions |
| `SpecDoc.v` | what a reader takes from the document: path and verdict of each file |
| `SpecRead.v` | nodes and texts at a path of the document; fields of image header, SIZ and COD by position |
| `SpecForm.v` | paired formats; the file with the four required boxes around a codestream |
| `SpecSame.v` | files and codestreams that differ in form, order and metadata only |
| `SpecWhy.v` | the requirements a file does not meet, each at its path of element names |
| `SpecDamage.v` | positions in boxes at which a valid file has no choice |
| `SpecEnv.v` | two environments that agree on what matters for a file |
| `SpecSmall.v` | numbers of at most n digits; the tags of the two numbers that may be long |
| `SpecArgv.v` | the grammar of the command line |
| `SpecXml.v` | a reader of XML 1.0 with namespaces |
| `SpecXsd.v` | validity against an XML schema; `xsd/jpylyzer-v-2-2.xsd`, transcribed by hand, and amendments to it |

Proofs: `P*.v`.  Concrete environment and a minimal file for the examples: `Ex.v`.
Property theorems: `Prop_*.v`, named `Cnn_...` after the property they belong to,
each with a concrete case (an `Example` or a witness) and a `Print Assumptions`;
in the later files one `Print Assumptions` covers the tuple of all theorems of the
file, because the check takes about 20 s per file-level theorem.

## 3. Trusted base

* Coq's kernel (and coqchk).
* `Print Assumptions` of every property theorem; see section 6.
* The correspondence between the Python text and the Gallina definitions, established
  by reading.  Each definition cites the lines it models, and any simplification is
  stated there.  Summary of what is *not* modelled: section 4.
* The transcriptions of documents: the schema in `SpecXsd.v`, the tables of names in
  `SpecNames.v`, the layout of the ICC header in `SpecIcc.v`.

## 4. Not modelled

* the wording of messages on stderr, of the help and of the version.  Which paths are
  warned about, and when the parser of the command line gives an error, help or the
  version, is modelled (`Argv.v`, from the text of CPython 3.11's argparse for the options
  that jpylyzer declares; the digits of `\d` and the function `int` are parameters).
* expat (`ET.fromstring`, `minidom.parseString`): a parameter; the theorems about the
  written text assume that it agrees with the reader of `SpecXml.v` on what jpylyzer
  gives it (`dom_ok`, `parser_ok`).  The writers (`ET.tostring`, minidom's `toprettyxml`)
  are modelled in `Serial.v` from the text of CPython's library, as far as jpylyzer uses
  them: no comments, processing instructions, CDATA or DTDs.
* the `tail` of XML elements (jpylyzer neither reads nor writes it).
* `KeyboardInterrupt`, out-of-memory, concurrent modification of the file.
* the remaining stack frames at the moment `checkOneFile` is called: the recursion limit
  is a parameter and counts nested `validate()` calls.
* `Jython`, Python 2.

## 5. Properties

`properties.jsonl` states the properties; `MANIFEST.json` gives status and theorem
names.  Plan per property (M = what is modelled, P = how proved):

| id | M | P |
|---|---|---|
| C01-C03 | byteconv decoders | list induction, `bz` range |
| C04-C07, C09 | text/hex/UTF-8 functions; Unicode categories as parameter | induction on strings; UTF-8 round trip by case analysis on code-point ranges |
| C08 | shared.py | induction with positions |
| C10 | `_isValid`, all validators | state invariant over the tests tree |
| C11, C12 | all validators, two option records | relational (two-run) invariant carried through every validator |
| C13, C14 | box / marker loops | measure = bytes left |
| C15, C16 | tile-part loop, packet-length loop | refutation by a diverging input for every budget, and conditional termination |
| C17 | packet-length parser | induction over entry lists; refutation for 3-byte entries |
| C18, C19 | `_getBox`, `_getMarkerSegment`, loops | induction over serialised lists |
| C20, C21, C22 | checkOneFile, exceptions of every validator | "raises only" predicate carried through every validator |
| C23-C34 | each leaf validator | symbolic execution to a closed form; equivalence with independent spec predicate |
| C35 | csiz-dependent layout | symbolic execution |
| C36-C39 | validate_JP2, codestream | from closed forms: all tests true implies structure |
| C40, C43 | truncation / trailing data | via chaining invariant; refutations by witness |
| C41 | canonical file family | symbolic run of the whole validator for all parameters |
| C42 | tile-part bookkeeping | refutation by witness and conditional theorem |
| C44-C46 | makeHumanReadable, checkOneFile | tree induction |
| C47 | compression ratio | float rounding lemmas |
| C48-C50 | main, checkFiles, findFiles with abstract file system | list induction |
| C51-C53 | mix.py | case analysis |
| C54-C57 | locality, unknown boxes, XML, monotonicity in limits | relational invariants |
| C58 | UUID info, list and URL boxes | symbolic execution; characterisation of acceptance |
| C59, C62, C63 | tile parts of accepted codestreams | from C60; refutations by witness |
| C60 | the whole validator | equivalence of "isValid True" with `file_ok` / `codestream_ok`, both directions |
| C61 | recursion | measure: every nested call gets at least 8 bytes less |
| C64 | `PyFloat.v`, resolutions, compression ratio | shortest-repr round trip for all doubles; error bounds over Q |
| C65, C68 | mix.py and the file it describes | from the closed form of the report (`shows` relation) through the remap table to MIX |
| C66 | remap table | table against an independent table of names; injectivity by enumeration |
| C67 | embedded profiles | closed form of `validate_icc` against the ICC.1 header layout |
| C69 | the whole validator | big-step outcome relation (`file_out`) against the model for budgets large enough; no-exception logic for tile parts at any offset |
| C70 | `Serial.v`, Main | the reader applied to the writer: round trip by induction on trees, for both modes of output |
| C71 | the whole validator | an invariant of the trees each validator makes, against the content models of the schema |
| C72 | findFiles over PosixFS.v | induction on trees of directories, paths as lists of names; for several components (`PGlob.v`) induction on the components from the last |
| C73 | main over PosixFS.v and Serial.v | C72, C69, C60, C20 and C70 put together; path and verdict read off the parsed document |
| C74 | `Argv.v`, main | the parser accepts a line iff the grammar derives it; induction on the line both ways |
| C75 | main over Serial.v | C70 and C71 give the correspondence of paths in the document and in the report; C66, C60 and the contents of valid files (PMix.v) the values |
| C76 | VSuper.v | `file_ok` and `codestream_ok` of C60 compared for paired formats; the reports by simulation of the two walks (`PForm2.v`) |
| C77 | VSuper.v | `file_ok` and `codestream_ok` of C60 under permutation of boxes and segments; tile parts by shifting offsets (`PSame.v`) |
| C78 | VSuper.v, CheckFile.v | reports of all boxes, segments and tile parts (`reports`, `super_says`, `tile_says`, `cs_says`) followed down to the failed leaves (`PWhy.v`) |
| C79 | VSuper.v | `file_ok` of C60, the consistency of C37 and the writing of boxes of C18 (`PDamage.v`) |
| C80 | VSuper.v, VBoxes.v | `file_ok` and `codestream_ok` of C60 and the splitting of C18 (`Prop_One.v`) |
| C81 | BV.v, VSuper.v, CheckFile.v | `file_ok` and `codestream_ok` of C60, read in two environments (`Prop_Env.v`) |
| C82 | BV.v, VBoxes.v, VMarkers.v, VSuper.v, CheckFile.v | `digits`, `wide_tag` of `SpecSmall.v` (`PSmall.v`, `Prop_Small.v`) |

Properties that are false of the code are proved false: a theorem
`..._refuted : exists ..., ...` with a concrete witness, next to the strongest true
variant that we can prove.

## 6. Assumptions

`Print Assumptions` reports "Closed under the global context" for every theorem
listed in `MANIFEST.json` (all `Theorem Cnn_...` of all `Prop_*.v`): no axiom is used,
neither of ours nor of a library.

`vcheck` also lists the axioms present in the libraries that are loaded, whether used
or not.  These are the fields of the module `Under_rel` of `Coq.ssr.ssrunder` (`Under_rel`,
`Under_rel_from_rel`, `Under_relE`, `over_rel`, `over_rel_done`, `under_rel_done`,
`Over_rel`), which the standard library loads; no theorem here depends on them.

Hypotheses about parameters.  `env_ok` (used in report theorems): the
printable ASCII characters are not control characters for the parameter `catC`, and
the int-to-str digit limit is one that Python allows.  `pow_ok`: `pow(10.0, n)` for negative n
is within the stated relative error.  `space_ok`: `str.isspace` on ASCII.  C82 assumes that the
XML parser gives elements whose texts are not numbers, and a step budget below 2^299.  Each is met
by the concrete environment `E0` of `Ex.v`; the examples show this.

## 7. Wrong programs

`seeded/LOG.jsonl` has one line per edit of the model that was tried in a scratch copy.
`first_failures` are the lemmas or theorems at which the rebuild stopped;
`theorems_failed` are the property theorems that depend on them.  Edits that the
theorems of the time did not notice led to new or stronger theorems
(`theorems_tightened`), or are marked as equivalent programs.
