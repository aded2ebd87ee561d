# Formal model of epcpy in Rocq (Coq 8.16.1)

## Layout (`/verif/rocq/theories`)

* `Model/`  executable Gallina model of the Python files, no proofs. Every definition cites file and lines.
  * `Py.v`       Python runtime: `str` as list of code points, exceptions as values, slicing, `split`,
                 `join`, `replace`, `zfill`, `int(s, base)`, integer formatting, Unicode decimal digits, base64/hex.
  * `Re.v`       regular expressions: syntax, derivative matcher (`fullmatch`, `match`), `re.split`, `re.findall`.
  * `Regexes.v`  `epcpy/utils/regex.py`; `RegexText.v` has its pattern strings, `Sre.v` parses and searches with them
  * `PyFloat.v`  the float computation of `common.py`
  * `Common.v`   `epcpy/utils/common.py`
  * `Base.v`     `epcpy/epc_schemes/base_scheme.py`
  * `Sgtin.v` ... `Adi.v`, `Others.v`  the 21 scheme files (`Others.v`: the classes without tag encoding except LGTIN)
  * `Parsers.v`  `epcpy/utils/parsers.py`
  * `Calls.v`    how positional and keyword arguments reach `tag_uri`, `binary`, `hex`, `base64` of each class;
                 integers as GTIN type, `includes_filter`
  * `Registry.v` `Enum` and `dict`; all enumerations, class bases, `header_to_schemes`, the dictionaries of `parsers.py`
  * `Objects.v`  objects over time: assignment to `epc_uri`, the caches, histories of calls
  * `Dynamic.v`  every entry point called with values of any of the listed types
  * `Reader.v`   Python's lexical rules and grammar, as far as epcpy uses them: from the text of a file to its syntax tree
  * `Syntax.v`, `Machine.v`, `Loader.v`, `PyFormat.v`  a second way to the program: the syntax of the part of Python that epcpy is
                 written in, a machine that runs it step by step, the import of modules, `format` with a specification text
* `Source/`  the syntax trees of /repo, written by `tools/gen_source.py` from Python's `ast` of the source text (docstrings
             and annotations left out, nothing else); `Program.v` lists modules and functions, `World.v` has what importing the
             modules gives, computed by `Loader.v`; `T_*.v`, `Texts.v` the text of the files themselves, line by line
             (`tools/gen_text.py`).
* `Spec/`  small independent vocabulary used in theorem statements, written from the English properties and the GS1
           documents, not from the model's helpers: `Spec` (check-digit law, decimal values, bit strings), `SpecEscapes`,
           `SpecGrammar` (URI grammars), `SpecSchemes` (class names and prefixes), `SpecTags` (tag URIs), `SpecTables`
           (partition tables), `SpecLayout` (tag layouts as lists of fields), `SpecElements` (element strings), `SpecGtin`,
           `SpecNumeric` (integer literals), `SpecKeys`, `SpecCoding` (headers, sizes), `SpecHex`, `SpecErrors`, `SpecCalls`,
           `SpecRegistry` (header table), `SpecObjects`, `SpecSre`, `SpecExact` (which tags read back), `SpecRespell` (percent-encoding), `SpecCollide` (what a string keeps of a URI), `SpecDynamic` (which values there are, what is done first with them).
* `Proofs/`      lemmas.
* `Properties/`  property theorems only, each closed by `exact`, with `Print Assumptions` and a non-vacuity `Example`.
* `Tests/`       tests, not proofs, run by `vm_compute`: `Vectors` (the repo's own unit-test vectors), `Runtime` (`Py.v`, `Re.v`
                 and `PyFloat.v` against answers of CPython 3.11.10), `Patterns` (the pattern terms against CPython's `re`
                 on 2683 texts), `Tables` (tables, enumerations, class statements and pattern strings of the model
                 against the literals of the source text, extracted by a program).

`seeded/LOG.jsonl` records the wrong programs the theorems were tested against.

## Modelling decisions

* Interpreter: CPython 3.11, Unicode 14, default settings.
* A Python `str` is `list N` (code points). Characters are not restricted to ASCII: `\d`, `int()` and
  `isnumeric()` are modelled with the table of all 66 decades of Unicode 14.0 `Nd` characters. `isnumeric()` is only
  called on texts for which `Nd` decides the answer (it is also true of `No`/`Nl` characters: those never reach it past
  the regular expressions).
* Exceptions are values: `res A := Ok a | Raise e`, `e` in ConvertException, ValueError, IndexError, KeyError,
  TypeError, OverflowError. Messages are dropped. `binascii.Error` is identified with its base class ValueError.
* Regexes are terms of a regex syntax transcribed from `regex.py`; `fullmatch`/`match` are decided by derivatives and
  proved equivalent to the usual language semantics (for patterns without look-around, the backtracking engine's
  success is language membership). `re.split`/`re.findall` are modelled as leftmost scans (all patterns used there
  have matches that are determined by the position). `RegexText.v` has the pattern strings themselves, `Sre.v` a parser for
  the syntax that occurs and the backtracking search with a count of its steps; C50 proves that parsing the strings and
  searching answers as the terms above do, so a slip in transcribing a term would show. What remains trusted is that the
  strings are those of `regex.py` (f-strings expanded one by one, as in the source) and that `Sre.v` reads the syntax as
  `sre_parse` does. A step is one visit of a node of the pattern; CPython's matcher does a bounded amount of work per
  step (it has shortcuts that only save steps).
* Enumerations of filter values are the numbers `0..7` (`0..15` USDOD, `0..63` ADI); `.value` is their decimal text
  (C48 proves this of the transcribed enumerations).
* Objects are records of the attributes set by the constructor. The unused caches `_base64,_binary,_hex,_tag_uri`
  (CPI.tag_uri writes one, nothing reads them) and assignment to `epc_uri` are in `Objects.v` only (C49).
* `int(s)` refuses more than 4300 digits and `str(i)` refuses to print such numbers (ValueError), as CPython does by
  default; bases 2 and 16 have no limit. Where the model prints a number of few bits it uses the unlimited `dec`.
* `int(n*log(2)/log(10))` in the fixed-width-integer codec is computed with Coq's specification of IEEE doubles (`PyFloat.v`),
  with the two logarithms as constants; C37 shows that it is the exact number of digits for n up to 4300.
* Arguments: `tag_uri` and `binary` receive coding scheme and filter value as typed in the request; `Calls.v` adds the
  ways of passing them (by position, by keyword, enum members of other classes, members in the wrong place), and
  `Dynamic.v` calls of every entry point with values of other types: `None`, bools, ints, floats (by their text), str, bytes,
  members of the library's enumerations, objects of its classes (C57). Lists, tuples, dictionaries, subclasses of the
  built-in types and instances of foreign classes are left out.

## Running the source text

C01-C57 are about the definitions in `Model/`, written by hand from the source. C58 and later ones connect these with the source text
itself: the syntax trees in `Source/` are run by `Machine.v`, and what comes out is proved equal to what the hand-written
definition says, for all arguments. A slip in transcribing a function would show as an unprovable theorem.

* `Machine.v` is a small-step machine with a stack of frames; evaluation is left to right as in Python. It has names (locals, then
  the module, then built-ins), attributes and methods through the method resolution order, positional and keyword arguments with
  defaults, `*args`, `**kwargs`, `super().__init__`, `if`, `for`, `break`, `continue`, `try`/`except`, `raise`, comprehensions, f-strings,
  slices, chained comparison, enumerations, dictionaries, and the built-ins that epcpy uses. Anything else is `StStuck`, and
  so are operations on types for which no rule is given: no claim holds of a run that gets stuck.
  The body of a `try` must be one statement (it is, both times), so that the handler sees the variables as they were; dictionary
  keys are texts, bytes, ints and patterns; a keyword passed twice is stuck.
  Operations on values of the wrong type raise TypeError or AttributeError where epcpy can meet them (slices, sums, differences,
  `split`, `zfill`, `int(v, 16)`, matching, `.value`, `.name`); C66 is about these. Proving it showed one slip in `Dynamic.v`: five
  classes cut the element string at its brackets before they look at the length, so ValueError can come before TypeError.
* `Tests/MachineCases.v` runs programs of our own, one or more for every rule of the machine, and compares the outcomes with those
  of CPython (`tools/machine_cases.py` holds the programs and writes the file).
* `Tests/MachineRandom.v` does the same with random programs over the machine's operations (`tools/machine_random.py`). Some 3600 more
  runs were compared. Two differences were found, neither met in epcpy: a built-in name that the machine does not know is a
  `NameError`, and a local variable read inside a comprehension before it is assigned raises `UnboundLocalError` instead of
  its base class `NameError`. About one run in a hundred is stuck (a negative width in a format specification, for one).
* `Reader.v` reads text as Python does: tokens with indentation and brackets, string and f-string literals, then recursive descent.
  It refuses what epcpy does not use (other number literals, escapes with a meaning besides quotes and backslash, `lambda`, `while`,
  sets, chained assignment, one-line blocks, ...), drops annotations, comments, statements that are only a text and `from __future__`,
  and keeps of a dotted module name the last part, as `gen_source.py` does. C65: what it reads in the text of the 26 files is what
  the machine runs. `Tests/ReaderCases.v` compares it with CPython's `ast` on programs of our own, by hand and at random
  (`tools/reader_cases.py`; ten thousand more, half of them with a word deleted, doubled or exchanged, were tried
  and agreed, except that it refused some programs that Python accepts).
* `Loader.v` runs the module bodies: imports, constants, functions, classes (C3 linearisation, enumerations with
  members in order, refused if two members have equal values). The result is `W` in `Source/World.v`; C58_loaded states that it is.
* `SpecMethods.v` says which value of the machine an object of each class is (class, attributes, in order of assignment), and in which ways the
  arguments of a method can be given.
* Values: `None`, bools, ints, texts, lists, lists of texts (`VStrs`, what `split` and `findall` give), tuples, dictionaries, enumeration members, objects with
  their attributes in the order of assignment, classes, functions, modules, matches, floats. Objects are values: there is no heap, so two
  names for one object do not see each other's assignments (epcpy assigns to attributes only in constructors and in
  `CPI.tag_uri`, to `self`). Exceptions carry their class, not their
  text: the arguments of a raised exception are not evaluated (they are f-strings over texts, lengths and numbers; the only one that can
  itself fail is `f"Invalid GTIN{gtin_type}"` for an integer of more than 4300 digits in the place of a `GTIN_TYPE`).
* Built-ins on texts, ints, regular expressions and floats are those of `Py.v`, `Sre.v` (the pattern string is parsed and searched at run
  time) and `PyFloat.v`, as in the model, so C58-C64 check control flow, names, constants, slices and the order of events, not these.
* `fits n` is `n < 2^100`: the width in `f"{x:0{n}b}"`.
* `CPI.tag_uri` assigns the cache `_tag_uri`; C60 is about the text it returns, C49 about the caches.

## Properties: what is modelled and how it is proved

| id | model | proof |
|----|-------|-------|
| C01-C03 | `calculate_checksum` (common, gsin) | induction on the digit list, two-step parity, arithmetic mod 10 |
| C04 | constructors, `gs1_key`, `gs1_element_string` of 13 schemes | constructor characterisation + C01 |
| C05 | the chained `str.replace` calls | each pass as a map over tokens; induction on the string |
| C06 | regex matcher + constructors | language characterisation lemmas, split/join lemmas |
| C07 | constructors, `__eq__` | constructor characterisation; distinct scheme prefixes |
| C08 | `tag_uri`, `from_tag_uri` | prefix-match of the tag regex, split lemmas |
| C09-C20 | `binary`, `from_binary`, all codecs and partition tables | positional numeral lemmas, slice lemmas, C08 |
| C21 | ADI `re.split` decoder | first-occurrence lemma for the six-zero run, iff |
| C22 | as C09-C21 | corollary of the round trips plus filter-field extraction |
| C23, C39, C46 | all constructors, parsers, methods over arbitrary strings | case analysis on every raise; witnesses by computation |
| C24 | `from_binary` then `binary` | numeral lemmas in the other direction |
| C25-C27 | header parsing, slices, dispatch tables | computation on the finite tables + slice lemmas |
| C28 | `hex`, `base64`, conversions | base-16/base-64 regrouping by induction |
| C29, C30, C45 | element strings | regex languages, fixed offsets, first-difference arguments |
| C31, C41 | `get_gs1_key`, `_idpat...` | combination of C08-C30 |
| C32, C33 | `gtin`, `from_gtin_plus_serial` | slice lemmas, C01 |
| C34, C35 | `tag_uri` guards vs `binary` | iff proofs; witnesses |
| C36 | tables | finite check lifted to all digit strings |
| C37 | codecs | induction |
| C38 | `verify_gs3a3_component` | token-level characterisation |
| C40 | Unicode table | `ascii_form` commutes with every reader of digits |
| C42, C43 | dispatch | split lemmas, regex prefixes |
| C44 | `binary` against `SpecLayout` | the same lemmas as C09-C20, stated as field lists |
| C47 | `Calls.v` | case analysis on the class and the arguments |
| C48 | `Registry.v` | finite computation lifted to all keys |
| C49 | `Objects.v` | invariant over the history |
| C50 | `RegexText.v`, `Sre.v` | search sound and complete for all patterns; equality of languages up to regrouping, by computation |
| C51 | `Sre.v` | a cost analysis proved sound: alternatives and exits of loops told apart by their first characters |
| C52 | `binary`, `from_binary` | C09-C21 for one direction; what the decoders can return for the other |
| C53 | `encode_string`, `decode_string`, `binary`, `from_binary` | induction over percent-encoded text; C38 for which texts are accepted again |
| C54 | `gs1_element_string`, `gs1_key` | the strings of C04 are cut at fixed lengths and brackets; `completed` is injective |
| C55 | `hex_to_binary`, `base64_to_hex`, `hex_to_base64`, the three `*_to_tag_encodable` parsers | a number with fewer digits than characters leaves four zeros in front, which no header has; `a2b` is cut where it stops, then decoded by groups of four |
| C56 | the parsers of parsers.py, every `from_*` and the writers, composed | the constructor is the only way to an object, so every parser's result is `init_of` of its own URI; then induction on the chain with `tag_uri_roundtrip`, `forms_roundtrip` and `element_roundtrip` as steps |
| C57 | `Dynamic.v`: every entry point on a type of Python values | cases on the value and on what is done first with it; for base64, the first six bits of the text of a value that is no str never open a header; for None as length, the constructors' grammars (a company prefix has at most 12 digits); finite checks that enumerations share no names with headers |
| C58 | `Source/S_common.v` run by `Machine.v` against `Common.v` | symbolic runs: the machine is reduced on unknown arguments up to the next call, loop or branch; induction for loops; one lemma per function |
| C59-C61 | `Source/S_*.v` of base_scheme.py and the 21 scheme files against `Sgtin.v` ... `Others.v` | the same, one file `Proofs/Src*.v` per class; the lemmas of C58 at calls of common.py; tables by computation |
| C62 | `Source/S_parsers.v`, `__eq__` of `Source/S_base_scheme.v` against `Parsers.v` | the same; dictionaries of classes by computation, then one case per class with the lemmas of C59-C61 |
| C63 | runs of the source on the machine only; no model function in the statements | C59-C62 turn runs into values of the model, determinism of the machine turns them back; C28, C31, C39, C56 between |
| C64 | runs of the source on the machine only, for the classes themselves: constructors, `from_*`, writing methods | the claims of C59-C61 put together over all classes, C27, C30, C39, C42, C56 and C63 between |
| C65 | `Reader.v` on the text of the files | computation; what is read is compared with the trees, functions and namespaces of C58-C64; induction over the list of files |
| C66 | `Machine.v` on the trees; `Dynamic.v` | runs with symbolic values by computation, one per kind of value; case analysis of the element string classes; the refusals of C57 compared one by one |
| C67 | runs of the source on the machine only, against `Spec/SpecReading.v`: the standard's decoding tables as bit positions | per coding scheme, the body that `from_binary` builds is the one the tables give (`Proofs/TagReading.v`) and is accepted by the constructor exactly for readable texts (`TagReading2.v`); then C62 and determinism. CPI-var and ADI-var, which have no fixed size: C68 |
| C68 | runs of the source on the machine only, against `Spec/SpecVarReading.v`: texts closed by six zeros, at bit positions | the fields are determined by the bits (`closed_once`); `from_binary` of `CPI` and `ADI` cuts exactly there, given no early zeros (`Proofs/VarReading.v`); then C62 and determinism. Four claims about other tags refuted by runs |
| C69 | runs of the source on the machine only, against `Spec/SpecWriting.v`: the standard's reading of C67 and C68, together with the name of the coding scheme and the filter value in the keywords | fixed sizes: the tag is read back (C63), and what is read stands for its URI (C67); CPI-var and ADI-var: from the layout of C44, field by field (`Proofs/TagWriting.v`) |
| C70 | runs of the source on the machine only, against `Spec/SpecTagUri.v`: the room of a coding scheme as a fact about the text of the URI, and the spelling of a tag URI | C34 and C08 for the request that the keywords make; the components of a URI are unique because a URI builds one object (`Proofs/TagUriRuns.v`) |
| C71 | runs of the source on the machine only, against `Spec/SpecBack.v`: which URIs come back, as facts about their texts | C52 for the request that the keywords make, C62 for the tag; the components of a URI are unique (`Proofs/TagBack.v`). Both comparisons with `tag_uri`, and that only bits are read, refuted by runs |

All 71 properties are proved; `MANIFEST.json` lists the theorems of each.

## What of the code is modelled

| Code | Modelled | Left out |
|---|---|---|
| `epcpy/utils/common.py` | every function, as called with `str`, `int` and enum arguments; `hex_to_binary` and `base64_to_hex` also with other values (`Dynamic.v`) | texts of exceptions |
| `epcpy/utils/regex.py` | every pattern, twice: as a term (`Regexes.v`) and as the pattern string (`RegexText.v`) | |
| `epcpy/utils/parsers.py` | every function and dictionary | |
| `epcpy/epc_schemes/base_scheme.py` | every class and method, also assignment to `epc_uri` (`Objects.v`) | `__repr__`-like defaults inherited from `object` |
| `epcpy/epc_schemes/*.py` (21 schemes) | constructors, all enumerations and tables, all `gs1_*`, `gtin`, `tag_uri`, `binary`, `hex`, `base64`, `from_*` | |
| `epcpy/__init__.py`, `epc_schemes/__init__.py` | which names they import (C65); `utils/__init__.py` is empty | |
| tests, README, notebook | test vectors in `Tests/` | |

Not expressible in the model: object identity, assignment to private attributes, arguments of
types other than those of `Dynamic.v`, texts of exceptions, memory exhaustion, interrupts, threads, running time other than the
step counts of C51, settings that differ from the defaults (`sys.set_int_max_str_digits`).

## Trusted base

1. Coq 8.16.1's kernel, including its `vm_compute` machine. No kernel check is switched off; no plugin besides those of
   the standard library is loaded.
2. Assumptions: `Print Assumptions` stands under every theorem in `Properties/` and prints `Closed under the global
   context` for each of them: no axiom, neither of the standard library nor of our own, is used. `coqchk -o` lists seven
   axioms in its global context, all from `Coq.ssr.ssrunder` (`Under_rel...`); that module is loaded with the standard library's
   tactics and no theorem depends on it.
3. The reading of the Python code: that the definitions in `Model/` do what the cited lines do (for the functions of C58-C64: that
   the lines in `Source/T_*.v` are those of the files, that `Reader.v` reads them as Python does and that `Machine.v` runs what is read
   as Python does; `tools/gen_source.py` need not be trusted, since C65 shows that its trees are what `Reader.v` reads), and that `Py.v`, `Re.v`,
   `Sre.v` and `PyFloat.v` do what CPython 3.11's `str`, `int`, `re`, `binascii`, `math.log` and float arithmetic do. This is checked
   only by the files of `Tests/` (the repo's own test vectors, answers of CPython 3.11.10's built-ins and `re`, literals of the
   source text), by C50 (two transcriptions of the patterns agree) and by C37 (float arithmetic against exact arithmetic).
4. The specifications in `Spec/`: that they say what the English properties say.
