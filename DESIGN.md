# Formal model of NUCLEAR-BOMB/option — design

Everything modelled comes from `/repo/include/opt/option.hpp` (the library is this one header; C60 is about the documentation's code, C59 is
about `/repo/debugger/option.natvis`, C65 and C66 are about `/repo/test/codegen`,
C67 is about `/repo/examples`) and is compared with `/repo/docs/*.md`. Line numbers in the Rocq comments refer to the header unless a file
is named. The Rocq development is in `rocq/theories`, logical name `Verif`.

## 1. Layers of the model

| Layer | Model | Specification | Proofs | Properties |
|---|---|---|---|---|
| Outcomes, words, integers | `Outcome Words Ints` — `Ok / Verify / UB` outcomes (a failed `OPTION_VERIFY` and undefined behaviour are different outcomes), unsigned arithmetic modulo 2^w, little-endian bytes, `memcpy` at an offset, C++ promotion and signed overflow | — | `WordsFacts IntsFacts` | — |
| Type universe and traits | `Types` — deep embedding `ty` of C++ types (scalars, pointers, library types, pair/tuple/struct with any member offsets, arrays, enums, sentinels, `member`, `enforce`, `option<T>`, `option<T&>`); `sizeof`, `max_level`, `get_level`, `set_level` by recursion on the type as `option_traits` does. `CustomTraits` — user-written comparison and setter | `TypesSpec` — which byte strings are values, what a user observes | `EnumFacts TypesFacts FrameFacts TraitFacts FindingsFacts` | `PropertiesRepr` |
| Byte-level option | `OptBytes` — `option_destruct_base` on raw bytes: default constructor, construct, reset, has_value, get, copy. `AsOption` | `TypesSpec` | `OptBytesFacts AsOptionFacts ReprLemmas` | `PropertiesRepr` |
| Enumerator scan | `EnumScan` — the text scan of the compiler's function name, all four preprocessor branches | `max_enum_value` of `Types` (list of named values) | `EnumScanFacts` | `PropertiesScan` |
| Object lifetime | `Lifetime` — options of an arbitrary class in a world of objects: cells with ghost liveness, exceptions at any call to T, all storage bases, all special members, emplace/take/swap…, nested options of any depth. `History` — programs over any number of variables. `Log` — the calls made to T. `Classes` — example classes | `LifetimeSpec HistorySpec` — rules for classes, programs over mathematical optionals | `LifetimeFacts HistoryFacts LogFacts ClassesFacts LifetimeLemmas` | `PropertiesLifetime` |
| Functional interface | `Api` — map, and_then, or_else, filter, flatten, value_or…, operators, conversions; callbacks are arbitrary state-changing, throwing functions | `ApiSpec` | `ApiFacts ApiLaws ApiMore ConvFacts` | `PropertiesApi` |
| References | `RefOpt` — `option<T&>` as a nullable pointer into a heap of referents, programs over them | `RefOptSpec` | `RefOptFacts` | `PropertiesObserve` |
| Observers | `Observe` (comparisons, hash, stream operators), `Iter`, `Lookup` (at, at_front, at_back, lookup, get on tuples and variants, from_nullable) | `ObserveSpec` | `ObserveFacts IterFacts LookupFacts` | `PropertiesObserve` |
| Tuples | `Tuple` — tuples of any length as classes; zip, zip_with, unzip | `TupleSpec` | `TupleFacts ZipFacts ZipLaws` | `PropertiesTuple` |
| Compile-time selection | `Select` — specialisations of `option_base` and `enable_copy_move`, choice of strategy for nested options | `SelectSpec` — the documentation's rules | `SelectFacts` | `PropertiesSelect` |
| Constraints | `Constraints` — when each constructor and assignment template of option takes part in overload resolution, as a function of the compiler's answers about the types. `Convert` — which of the enabled constructors of a nested option is chosen, and what value it builds | `ConstraintsSpec` — the conditions as printed in the documentation | `ConstraintsFacts ConvertFacts` | `PropertiesConstraints` |
| Bytes and objects | `ByteClass` — a type of the universe as a class of the lifetime layer; `ByteProg` — programs over option variables in one memory, with places reached through options and members | `ByteProgSpec` — the same programs over decoded values | `ByteClassFacts ByteCopyFacts ByteProgFacts BytesLemmas` | `PropertiesBytes` |
| Choice of mechanism | `Dispatch` — descriptions of C++ types (template, size, const, enumerators, members), the selection of the strategy, the levels that follow, which set_level compiles, and the type of `Types` that results | `DispatchSpec` — docs/builtin_traits.md as a relation | `DispatchFacts` | `PropertiesDispatch` |
| C++17 construction | `ConstructAt` — `construct_at` of C++17 as a change to the class that options construct (over `Lifetime`, `History`) | `LifetimeSpec`, `HistorySpec` | `ConstructAtFacts` | `PropertiesConstructAt` |
| Result types | `Results` — types with const and references, expressions with value categories, casts, reference binding; the result of every accessor, callback, element function, zip, unzip, flatten, swap, or that it does not compile | `ResultsSpec` — the rights of the holder of an option | `ResultsFacts` | `PropertiesResults` |
| Debugger display | `Natvis` — every entry of `/repo/debugger/option.natvis` as a function from the bytes of an option to what Visual Studio shows | `NatvisSpec` — the types of an MSVC build, the bytes that are misread | `NatvisFacts` | `PropertiesNatvis` |
| Raw item | `NatvisRaw` — the numbers of the items `[raw]` for bool, reference_wrapper, float and double | `NatvisRawSpec` — the numbers that stand for an empty option | `NatvisRawFacts` | `PropertiesNatvisRaw` (C59) |
| Documented specialisations | `Guide` — the specialisations of `option_traits` printed in `docs/custom_traits_guide.md`, `docs/reference.md` (as_option) and `examples/option_traits.cpp`, on bytes | `GuideSpec` — the set of values of each class | `GuideFacts` | `PropertiesGuide` |
| Initialisation | `Init` — parentheses and braces for integers, containers, aggregates with brace elision and the wrapper classes, in C++17 and C++20; which form each constructor, emplace, assignment and value_or_construct uses | `InitSpec` — the sentences of the documentation | `InitFacts` | `PropertiesInit` |
| Typestates | `Typestate` — the annotations, the rules of Clang's analysis for variables on a path, paths with tests and exceptions | `TypestateSpec` — what a state promises | `TypestateFacts` | `PropertiesTypestate` |
| Typestates of functions | `TypestateFlow` — statements, the rules of Clang's analysis for branches, loops and handlers | `TypestateFlowSpec` — the runs of a statement | `TypestateFlowFacts` | `PropertiesTypestateFlow` |
| Constant evaluation | `ConstEval` — the four storages with the active union member, which traits can be evaluated, programs over variables | `ConstEvalSpec` — mathematical optionals; conditions for C++17, C++20 and storage without a flag | `ConstEvalFacts` | `PropertiesConstEval` (with test/constexpr.test.cpp) |
| Generated code | `PyText` (strings of Python), `Codegen` — `/repo/test/codegen/run.py` from the parsing of expected listings to the result; `Disasm` — its parser of the disassembly; `CodegenSample` — the listings of `sample.cpp`; `Asm` — a subset of x86-64: assembler for the listings, registers, memory, flags, execution | `CodegenSpec` — order of versions, when a listing applies; `CodegenRead` — headings and the listings a file states, as relations; `AsmSpec` — calling conventions and what each function does, by the functions of `OptBytes`; `DisasmSpec` — headings, words, numbers, as relations | `CodegenFacts CodegenReadFacts AsmFacts AsmListings DisasmFacts` | `PropertiesCodegen PropertiesCodegenRead PropertiesDisasm` |
| Check of the examples | `Examples` — `/repo/examples/check.py` on texts and exit codes | `ExamplesSpec` — lines, texts beside them, numbers, as relations | `ExamplesFacts` | `PropertiesExamples` |
| Comparison with std::optional | `Braces` — overload resolution for `a = {}`; otherwise the models above | `StdOptional` — std::optional<T> of the C++23 standard and programs over it; `StdSpec` — when two programs do the same; `StdConstraints` — when its constructors and assignments take part | `StdFacts StdConstraintsFacts` | `PropertiesStd` |
| Choice of comparison | `Compare` — the templates of the six operators, overload resolution between them with the candidates C++20 adds, what the chosen one computes on nested options | `CompareSpec` — the layer at which an operand is empty | `CompareFacts` | `PropertiesCompare` |
| Hashes | `Hash` — which std::hash takes part and what it computes, for types with const, references and options | `HashSpec` | `HashFacts` | `PropertiesHash` |
| invoke | `Invoke` — the seven overloads and overload resolution between them | `InvokeSpec` — INVOKE of the standard | `InvokeFacts` | `PropertiesInvoke` |
| Ranges | `IterProg` — programs over the iterators of an option (2404–2506, 2980–2993), on top of `Iter` | `IterProgSpec` — what the standard promises for a contiguous range of n objects | `IterProgFacts` | `PropertiesRange` |
| Deduction | `Deduce` — deduction guides of option (2832–2901, 3273), overload resolution among them, documented equivalents that use them | `DeduceSpec` — docs/reference.md 2436–2455 | `DeduceFacts` | `PropertiesDeduce` |
| References | `Alias` — calls whose argument is an address in the same memory, read when T's constructor or assignment runs | `AliasSpec` — the same calls with copies made before | `AliasFacts` | `PropertiesAlias` |
| Declarations | `Layout` — offsets, sizes and alignments computed from declared members, variables one after the other | `LayoutSpec` — declared types, well-typed calls | `LayoutFacts` | `PropertiesLayout` |
| Re-entrance | `Reenter` — the functional members with callbacks on the whole option | `ReenterSpec` — which callbacks are proper, filter and take_if on optionals | `ReenterFacts` | `PropertiesReenter` |
| Documentation | `DocLang`, `DocSnippets`, `DocProg` — a language with text and meaning for the code equivalents of docs/reference.md, 27 of them transcribed, programs made of them; `DocSource` — their text | `DocSpec`, `DocClasses` — when two descriptions of a class are the same | `DocFacts`, `DocMembers`, `DocNest`, `DocProgFacts`, `DocText`, `DocClassFacts` | `PropertiesDocs` (C79) |
| Documentation of reading and zip | `DocAccess`, `DocTuple` — 17 more code equivalents of docs/reference.md: value_or, the free functions on containers, variants and pointers, get, flatten, swap, hash, zip, zip_with; std::tuple as its users see it | `DocAccessSpec`, `DocTupleSpec` | `DocAccessFacts`, `DocTupleFacts` | `PropertiesAccess` (C87) |
| Strings of the libraries | the string rows of `Types` | `StringSpec` — objects of std::basic_string of the STL of Microsoft, libc++ (two layouts) and libstdc++, written from the libraries' own members and independent of the tables of offsets in `Types` | `StringFacts` | `PropertiesString` (C88), C45 |
| Nested options | `Layers` — programs that dereference k times and reset, emplace or ask there; the overview of README.md | `LayersSpec` — number of engaged layers and innermost value | `LayersFacts ReadmeFacts` | `PropertiesLayers` (C89) |
| Mixed iterators | `MixIter` — types of iterators, conversions, overload resolution of their operators, programs that read and write | `MixIterSpec` — positions in a list of values; the container rule | `MixIterFacts` | `PropertiesMix` (C90) |
| Noexcept | `Noexcept` — calls of functions declared noexcept; `swap` of options of different types; containers and sentinels whose operations throw | `NoexceptSpec` — the traits tell the truth, a member keeps its promise, values carried over by conversions | `NoexceptFacts`, `NoexceptClasses`, `PropertiesNoexcept` |
| Borrowing | `Borrow` — objects, their parts and the references in them; the result of each function as references and copies; the parameters that carry `OPTION_LIFETIMEBOUND`; expressions with temporaries and Clang's rule for a warning | `BorrowSpec` — parts of a place, places reachable through references, references to temporaries | `BorrowFacts`, `PropertiesBorrow` (C96) |
| Pure functions | `PureCalls` — the functions with `OPTION_PURE` over hooks that may write; programs with branches and loops; the optimisations that the attribute permits | `PureCallsSpec` — hooks that only read, states that agree where registers are used | `PureCallsFacts`, `PropertiesPure` (C97) |
| Threads | `Threads` — the calls of `ByteProg` made by several threads in the order of a schedule | `ThreadsSpec` — bytes that calls read and write, conflicts, programs without conflicts | `ThreadsFacts`, `PropertiesThreads` (C98) |
| Binding of references | `RefBind` — types with inheritance and conversions, [dcl.init.ref], `ref_to_ptr`, the constraints of option<T&> and the ways to bind it; `RefFrom` — the same from other options | `RefBindSpec`, `RefFromSpec` — parts, const, value categories | `RefBindFacts`, `RefFromFacts` | `PropertiesRefBind`, `PropertiesRefFrom` |
| Benchmark | `Bench` — benchmark/generate.py with `int` and `str` of Python | `BenchSpec` — decimal numbers, what the lines of a file declare, when they compile and how many there are | `BenchFacts`, `BenchBuildFacts` | `PropertiesBench` |
| Declarations of std | `StdFwd` — the words that open and close namespaces, the declarations between them, a parser of namespaces | `StdFwdSpec` — where the libraries define their templates, lookup through inline namespaces | `StdFwdFacts`, `StdFwdConfigFacts` | `PropertiesStdFwd` |
| Step filter | `StepFilter` — the text of `/repo/debugger/option.natstepfilter`, its functions, regular expressions | `StepFilterSpec` — the language of an expression, qualified names | `StepFilterFacts` | `PropertiesStepFilter` (C102) |
| Comparisons of CMake, compilers of a run | definitions of `CMakeLang` and `CIDoc` | stated in the theorems | `CMakeWordsFacts`, `CIUsesFacts` | `PropertiesCMakeWords` (C83), `PropertiesCIUses` (C92) |
| Names of std | `StdNames` — the headers included in each setting, every line that uses a name of std | `StdNamesSpec` — the synopses of the headers, declared before a line, the names that are missing | `StdNamesFacts` | `PropertiesStdNames` (C103) |
| Decimal numbers | `PyText.parse_int`, `CMakeLang.component` | `NumeralSpec` | `NumeralFacts` | `PropertiesNumeral` (C66, C83) |
| Choice of traits | `Choice` — declared specialisations, the partial ones that match, the choice kept at the first use | `ChoiceSpec` — the choice in terms of the text before the first use; what may follow | `ChoiceFacts` | `PropertiesChoice` (C104) |
| Instructions | `Asm` | `AsmMeaning` — names of parts of registers, addresses, sums with carry, differences with borrow, zero extension | `AsmMeaning` | `PropertiesAsm` (C65) |
| Traits that need others | `ChoiceDeep` — use of `enforce`, `member` also chooses the traits of the inner type | `ChoiceDeepSpec` — text with these uses written out | `ChoiceDeepFacts` | `PropertiesChoiceDeep` (C104) |
| Undefined behaviour is seen | `Lifetime`, `History` | — calls on an option whose object does not live | `DeadUse` | `PropertiesDeadUse` (C17) |
| Undefined behaviour is seen, access and places | `Api`, `Reenter`, `Tuple`, `Iter`, `Lookup`, `ByteProg`, `Alias`, `Layers` | — exact conditions on pointers, positions, places | `DeadAccess`, `UndefSeen` | `PropertiesDeadAccess` (C27, C31), `PropertiesUndef` (C36, C53, C87, C89, C90) |
| Workflow | `CISource` — the text of ci.yml; `CILang` — the part of YAML, of GitHub's expressions and of the shells that it uses, its runs and their calls of cmake; `CMakeExternal` — test/cmake/ExternalProject, the order of a build; `CIDoc` — the compilers of README.md | `CISpec` — machines and settings of a run, sanitizers, tables by job and name | `CIFacts`, `CIDocFacts`, `CIWordsFacts` | `PropertiesCI` (C91, C92) |
| Build | `CMakeLang` — lexer, parser and interpreter of the part of CMake used; `CMakeSource` — the text of 13 CMake files; `CMakeFiles` — these as programs, the package that an installation makes | `CMakeSpec` — what a run puts on record, as a function of settings, compiler and machine | `CMakeRules` (fuel), `CMakeSym` (a symbolic interpreter, proved sound), `CMakeFacts`, `CMakeRun`, `CMakeUse`, `CMakeLemmas`, `CMakeWordsFacts` | `PropertiesCMake`, `PropertiesCMakeWords` (C83–C86) |
| Configuration | `Preproc` — an interpreter for preprocessing directives; `Config` — the directives of option.hpp 18–330, 490–511 and 2524; `Checks` — what `OPTION_VERIFY` and `throw_bad_access` do | `ConfigSpec` — docs/macros.md, compilers and libraries | `ConfigFacts ConfigSamples ConfigLemmas ChecksFacts` | `PropertiesConfig` |
| The project's tests | `TestsTraits TestsOption TestsLifetime TestsMeta TestsResults` — the checks of `/repo/test` run on the model by computation. `TestsExamples` — the four programs of `/repo/examples` (text in `ExamplesSource`) run on the model, their output checked by `Examples` | — | — | — |

Model files hold definitions only. `*Spec.v` files hold small specifications that do not call the
model's helpers. Every theorem of `Properties*.v` is closed by `exact`, followed by
`Print Assumptions` and by an `Example` that meets its hypotheses.

## 2. Property plan

| ID | Modelled how | Proved how |
|---|---|---|
| C01, C02 | byte-level default constructor / construct / reset / has_value over the universe | structural induction over `ty` (nested induction for tuples) |
| C03 | one byte string, one logical value; has_value/get at each layer decode it | induction over `ty` |
| C04 | `sizeof` on `ty`, k-fold option | induction over k |
| C05, C06 | contract of `get_level`/`set_level` for every well-formed `ty` | induction over `ty`, word lemmas |
| C07 | bytes outside the carrier are unchanged | induction over `ty` with the set of touched bytes |
| C08, C09 | canonical addresses, IEEE classes defined on bit patterns | arithmetic over all words |
| C10 | enum reflection executed on the list of named enumerators | finite sweep lifted for rounding; bit lemmas for unions of flags |
| C11 | C++ integer semantics with promotion, UB outcome | arithmetic; refutation witnesses for signed overflow; exact set of values with undefined level |
| C12 | `index_of_max`, pair rule | list induction |
| C13 | one model per library type, per standard library | arithmetic |
| C14 | `PADDING` with promotion of `~member_type(0)` | law below 2^w-1; refuted above; what is read back at every level |
| C15, C16 | recursion over the value list; user functions as parameters | list induction |
| C17–C20, C22–C24, C43 | lifetime state machine with ghost liveness and log | invariant by induction over histories; refinement to a map of mathematical optionals |
| C21 | same with in-T sentinel and torn writes | refutation by witness; positive theorem under the precise side condition |
| C25 | `Verify` outcome in construct/assign | case analysis over all operations |
| C26 | pointer model with heap of referents | invariant over histories |
| C27–C30, C32, C33, C37–C41 | API functions in a state/exception monad | equational reasoning |
| C31 | tuples and operand lists of any length | list induction, lenses into lists of cells |
| C34 | 24 comparison overloads over arbitrary operators of T | order-theoretic proofs |
| C35 | hash model | direct |
| C36 | iterator as pointer with nullable base | arithmetic |
| C42, C44, C47 | Boolean tables of the specialisations | exhaustive case analysis over the complete domain; induction over nesting depth |
| C45 | intervals of reserved patterns against the documented ranges | arithmetic; mismatches refuted |
| C46 | byte copy | corollary of C03 and layout lemmas |
| C48 | scan over the printed text, any type and enumerator names | induction over the candidates and the text |
| C49 | constraints as Boolean functions of any record of compiler answers | case analysis against the printed conditions; differences refuted |
| C50 | candidates of a construction, options nested to any depth | induction over the depth of the source and of the target; least number of layers converted, for any innermost type |
| C51 | a type of the universe becomes a class whose objects are byte strings of its size | contract of the traits gives the laws; nesting theorem of the lifetime layer |
| C52 | relation between cells and bytes at every nesting depth | simulation, operation by operation |
| C53 | one memory, variables at any offsets, member paths | refinement to programs over values, induction over the program and the path |
| C54 | descriptions of types, compile-time functions over them | case analysis; induction over nested descriptions, the selected member survives lowering the others |
| C55 | classes made through a temporary | the changed class is lawful, so C17–C23 apply; programs are relabelled; counting class as witness |
| C56 | result types and value categories of the members | finite case analysis over const and references, for every class |
| C57 | element access, zip, unzip, flatten | the same, and induction on lists and on nesting |
| C58 | `swap(a, b)` | overload resolution between `std::swap` and the library's template |
| C59 | display conditions of the visualizer on bytes | compared with `has_value` type by type, for every nesting depth |
| C60 | printed specialisations as custom types of the byte layer | each is well formed (hence C01–C07), at every nesting depth; exact inputs where it is not |
| C61 | two forms of initialisation as functions of type and arguments | the forms agree wherever both are valid, by induction over members; exact errors per standard |
| C62 | type_wrapper's constructors over the same functions | case analysis; sentinel values on bytes |
| C63 | knowledge about variables along a path of History calls | each rule preserves truth of the knowledge in the abstract state (C18); paths as witnesses |
| C64 | optional values plus one bit per variable (its storage has held a T) | one simulation lemma for all storages and standards, instantiated twice |
| C65 | execution of assembled listings on any state | symbolic execution of each of the 77 listings for options; every version behaves like one of finitely many |
| C66 | the script as functions on strings | induction over lines, listings and characters; representatives for versions |
| C67 | the script as functions on strings | functions are shown to compute the relations; induction over lines |
| C68 | the parser as functions on strings, the regular expressions written out | as for C67; composed with C65 |
| C69 | `std::optional` of the standard as a second class constructor over the same classes T | simulation, member by member, lifted to programs and to nesting by induction on the depth |
| C70 | the standard's constraints on the same type descriptions; candidates for `{}` and their ranking | case analysis over all answers of the compiler |
| C71 | candidates, viability by recursion over the layers, partial ordering | induction over the layers of both operands; case analysis over all sets of viable candidates |
| C72 | interpreter run on 27 parts of the header | one lemma per part: what it defines, what it leaves alone; composed |
| C73 | the part that looks for pfr | case analysis over the settings; the documented choice is written separately |
| C74 | effect of a false check read off the final macros; histories of `History` | C72 and C18 |
| C75 | selection of the specialisation by recursion over the type; values of `Convert`, comparison of C71 | induction over the layers |
| C76 | viability, conversion of the first argument, partial ordering | case analysis over callee, first argument and answers; any number of further arguments |
| C77 | interpreter for programs with continuations, reference semantics by positions | simulation: induction over programs; partial: false for empty options |
| C78 | list of guides, deduction, ranking, unique best candidate | case analysis over categories and classes; induction over layers and lists |
| C79 | code equivalents as programs with their text; simulation between the documented option and the storage model | one simulation lemma per function; closure of the relation under option; induction over depth and programs |
| C80 | arguments as addresses, bytes read late | paths denote addresses; objects of type T are disjoint from an option<T> or contained in it; induction over the program |
| C81 | callbacks as functions of option and world | equalities for the functions that end with the callback; for filter and take_if the lemmas on construction and take applied to the state the callback left |
| C82 | layout function on declarations | induction over declarations and paths; powers of two for the alignment of structs |
| C83 | interpreter run on the text of the CMake files | a symbolic interpreter that is sound for every state that fits its assumptions; the trace computed once for symbolic settings and compared with `expected` |
| C84 | the projects of test/cmake, the exported package | the same with the run of the library inside |
| C85 | arguments of run-option-codegen-test | record of C83, `split` and `lower` of the model of run.py |
| C86 | compiler_warnings.cmake | record of C83 |
| C87 | the other code equivalents, with tuples of any length on both sides | cases; a simulation lemma for construction with undoing, closure of the relation of C79 under pairs, induction over the operands |
| C88 | what a string is, as an inductive predicate over bytes per library | the mark of option.hpp against each constructor; first and last byte of a word |
| C89 | programs on `nest n T` against a counter of engaged layers | induction over the program and over the dereferences |
| C90 | typed programs with continuations against positions; `resolve` for member operators | induction over programs; case analysis over types |
| C91 | the record of each configuration (C83, C84) for every machine and setting that belongs to it; allowed orders of a build | the runs are computed; the rest follows from `expected` |
| C92 | lines of README.md against the runs | computed; flags from `expected` |
| C93 | runs of statements, step by step | induction on statements, and on runs for loops |
| C94 | truthful traits of a class, exceptions as outcomes | case analysis of each body; induction on the depth and on the list of sentinels |
| C95 | relations between values of T and of U | case analysis on the four states, reusing the facts on construct and reset |
| C96 | memory as a list of objects, places as paths, temporaries appended | every reference in a result is accounted for by the function's body; induction over expressions with the invariant that no object refers to a temporary |
| C97 | big-step semantics; the optimiser as a relation with known facts and unused registers | simulation by induction on the execution |
| C98 | footprints of calls as regions; memories alike in a region | each call only sees and changes its footprint; induction on the schedule |
| C99 | binding of references as the language defines it, constraints as booleans | case analysis; exact for each way to bind, false parts with witnesses |
| C100 | the script as a function from its words to a file; declarations read off the lines | induction over the range; every number is read back from its digits; the words of the commands come from C83 |
| C101 | tokens of the block for each library, names of inline namespaces as parameters | computation with symbolic names; lookup by the paths |
| C102 | the pattern as pieces with counts, a matcher by recursion on the pieces | matcher and reader are exact for the language; names by their first part |
| C103 | table of uses by line, includes as a function of the setting, synopses as tables | names of headers that are always included once for all settings; the few others by computation for each setting |
| C104 | translation unit as a list of specialisations and uses; a memo of choices | an invariant relates the state to the text; the list of candidates is empty, one or more exactly as the text says |

## 3. Trusted base

* The kernel of Coq 8.16.1 (and `coqchk`).
* `Print Assumptions` of every theorem in `Properties*.v` says "Closed under the global context": no
  axioms. The axiom list of a whole-library check names seven constants of
  `Coq.ssr.ssrunder.Under_rel` (`Under_rel`, `Under_rel_from_rel`, `Under_relE`, `Over_rel`, `over_rel`,
  `over_rel_done`, `under_rel_done`): these are module fields in a file of the standard library that
  `lia`'s dependencies load; no theorem here depends on them.
* The reading of the C++ source by hand: each definition cites the lines it models.
* That reading is tested, not proved: the `Tests*.v` files run the checks of the project's own test
  suite and its example programs on the model (values, sizes, level bytes, counts of constructor calls, special-member and
  constructibility traits, operators). All agree, except the undefined pointer arithmetic of §4.
* Platform facts, each a hypothesis or a definition: 8-bit bytes, two's complement, 32-bit `int`,
  little-endian memory, `bool` is 0/1 in one byte, IEEE binary32/64, the layout facts about library
  classes that the header itself assumes, and (C48) how compilers print template arguments.

### Simplifications

* Layouts (`sizeof`, offsets) are parameters with a well-formedness condition, so every ABI is covered; C82 shows
  that layouts computed from declarations meet it (without empty classes, bit-fields and reused tail padding).
* A class T in the lifetime layer is a record of functions on a world (constructors, assignments,
  destructor, level functions) that obeys the rules of `LifetimeSpec`; the rules say what a C++
  class must do in order not to have undefined behaviour itself.
* Callbacks are functions on the world that may change anything in it, throw, or end with UB; calls
  whose argument refers to the option's own contents (`a.emplace(*a)`) are outside the rules of this layer;
  C80 treats them in the byte layer.
* Assigning to storage in which no object lives (C++17's `construct_at`) is the byte copy that compilers
  make of it. C17–C23 read `construct` as placement new (C++20); C55 says when C++17 agrees.
* In the byte layer reading an inactive union member is reading its bytes (the library relies on it).
* In `ByteProg` and in the copies of C52 a T is copied and moved by copying its bytes (scalars, aggregates of
  them, options of them; no move that empties its source). Addresses are offsets into one memory; alignment is
  not checked.
* Value categories are modelled where they matter for state (copy or move of the source); overload
  sets that only differ in `const` or in `&`/`&&` and have the same body are one definition. What they
  return and pass on is the subject of `Results`, in which types have one level of const and at most one
  reference; volatile, arrays, functions, derived classes and conversions between classes are left out.

### Not modelled

* Overload resolution in general: the answers of the compiler about a class (`is_constructible`,
  `is_convertible`, …) are parameters; only the candidates that option itself adds are modelled
  (`Select`, `Constraints`, `Convert`).
* `constexpr`-ness, other attributes, warnings, debug iterators.
* Compiler and ABI conformance; `boost::pfr` itself (a struct is given as its member list).
* The natvis language: conditions are read as C expressions on the bytes of the object, an entry whose
  condition names an unknown member shows nothing, and matching of type names follows `$T1` and the last
  character as the file does. Of the item lists only the numbers `[raw]` of 3–131 are modelled (`NatvisRaw`).
* Constant evaluation: the rules about union members are those of the C++ standard (assignment through a pointer does not
  activate a member, `std::construct_at` does). Operations of T itself are taken to be usable; operands of a call are
  distinct variables; references and dangling pointers are left out.
* Clang's typestate analysis is read from its implementation, for functions built of sequences, branches,
  loops and handlers; goto, switch and lambdas are left out.
* `OPTION_PURE`: two optimisations (unused calls, known results) as GCC's manual describes them; what MSVC does for
  `__declspec(noalias)` is left out.
* `OPTION_LIFETIMEBOUND`: types are known only as far as objects show them, a conversion between classes copies the
  references of its operand, and Clang's warning is its rule for annotated arguments of the initializer of one
  variable. Its other heuristics (gsl::Owner, gsl::Pointer) are left out.
* The code generation test: compiling and running objdump (run.py 17–32) are left out, as are the
  listings for `std::optional`. Text is ASCII. Of the flags only zero and carry
  are modelled, of the registers six; instructions with `xmm` registers occur for `std::optional` only. The
  calling conventions are those written at the top of `AsmSpec`. `CodegenSample` is the text of `sample.cpp`.
* Preprocessor: conditions are trees, macros of one parameter occur in the forms the header uses, aliases are
  followed two deep, an included file is the list of macros it leaves defined. Lines 332–489 (forward declarations of
  namespace std) are modelled in `StdFwd` (C101), by name only. A user's own `OPTION_VERIFY` may do anything.
* `StdOptional` and `StdConstraints` are readings of [optional] of C++23, `Braces` of [over.ics.list] and
  [over.match.best]; calls of std::optional that option lacks or names differently are left out.
* CMake: `CMakeLang` is a reading of the manual of CMake 3.24 and lists its simplifications; generator expressions are
  kept as text, what modules, packages and downloads provide is described by `host`, the export file and
  `configure_package_config_file` are modelled by `exported` and `configured` (@X@ has the value X has for the user).
  Left out: the function of cmake/sanitizers.cmake (read, never called).
* Of `.github/workflows/ci.yml`: `on:`, `uses:` and steps that do not call cmake have no effect; names of GitHub
  (`github.sha` and so on) stand for themselves; which compiler `CXX` or a toolset of Visual Studio selects is in
  `CISpec.compiler`; the machine has Python, llvm-objdump, clang-tidy and a network (`equipped`). ExternalProject_Add is
  put on record, not carried out.
* Code equivalents of docs/reference.md without a counterpart in C79 and C87: `as_option` (1240, bytes of a sentinel), `unzip`
  for `std::pair` (1627, "simplified": it copies where the code moves; C31 states what unzip does).
* The members of std::basic_string in the three libraries are stated in `StringSpec` from the libraries' definitions; they are not in
  /repo and are assumed (little-endian; libc++ without its address sanitizer padding).
* Threads: a call is one step of the schedule.  Calls without a conflict touch no byte in common that one of them writes, so
  finer interleavings give nothing new; what happens after a data race is not modelled.
* benchmark/generate.py: text is ASCII, the output file can be opened and written.  The targets of the benchmark are built from
  what the recorded commands write; how long the compiler takes is not modelled.
* `StdFwd` and `StdFwdSpec`: the configuration macros and namespaces of libc++, libstdc++ and the library of MSVC are read from
  these libraries, which are not in /repo; template parameters, `get` and `get_if` are left out.
* The step filter: an expression has to match the whole name (as Microsoft documents it), ECMAScript is read as far as
  characters, dots and the quantifiers `?`, `*`, `+`; names are those that Visual Studio prints, without a return type.
* `StdNamesSpec`: the synopses are those of C++17 and C++20, restricted to the names that occur; they are read from the standard,
  which is not in /repo. The table of uses was extracted from the text of the header (comments and literals left out); names
  reached by `using` or argument-dependent lookup and macros (`SIGTRAP`, `stderr`) are left out.
* `Choice`: partial specialisations are taken as unordered (the second argument of the one for `sentinel_option_traits`, and of those
  with `enable_if`, depends on the first, so deduction fails in both directions); two partial specialisations of the user that are
  ordered are not modelled.  Specialising `sentinel_option_traits` after it was asked for is ill-formed without a diagnostic
  required; the model keeps the first answer, as compilers do.  `ChoiceDeep` adds that `enforce` and `member` choose the traits of the
  inner type; specialisations written by the user are taken to need no others.

## 4. Findings

Disagreements between the code and its documentation or an evident intention. Those marked with a
theorem have a machine-checked witness.

| Finding | Where | Theorem |
|---|---|---|
| `PADDING` member of type `uint8_t`/`uint16_t` advertises more levels than the member can hold | 1502 | `C14_narrow_refuted`, `C14_narrow_deep_refuted` |
| `SENTINEL` of a wide signed enum computes the level with overflow (UB) | 1542–1558 | `C11_sentinel_refuted` |
| `SENTINEL_START` of a wide signed enum: UB, and level count wraps to 0 for start 0 of `uint64_t` or `INT64_MIN` | 1559–1600 | `C11_start_refuted`, `C11_start_count_refuted` |
| duplicate values in `sentinel<...>` pass the static checks and break the level round trip | 3930–3969 | `C15_duplicates_refuted` |
| `sentinel_f` with two or more values does not compile | 3971–4010 | `C16_sentinel_f_refuted` |
| the enumerator scan counts commas inside a type name: for `S<int, (Color)3>::F` a named enumerator can become a reserved value (GCC, Clang, MSVC) | 846–898 | `C48_misled_refuted` |
| Clang 13 and later: for enums in an anonymous namespace the scan stops early, so no level is found (safe) | 868–873 | `C48_ex` |
| an exception from T's constructor after it has written into trait storage leaves the option engaged with no object | 2000–2110 | `C21_torn_constructor_refuted`, `C21_torn_copy_refuted` |
| copying `option<option<T>>`: the inner option is default-constructed before T's copy throws, so the outer becomes engaged even with flag storage | 2113–2135 | `C21_nested_copy_refuted` |
| C++17: `construct_at` makes a trivially move assignable T as a temporary and assigns it; if T has a non-trivial destructor (a class that counts its instances, with implicit assignment) the object in the option has already been destroyed and is destroyed again later | 652–669 | `C55_destroyed_twice`, `C55_balance_refuted` |
| `option<tuple>`: an element constructed before a throwing one makes the option engaged | 1700–1800 | `C21_tuple_refuted` |
| a reserved value written through `get()`/`operator*` silently empties the option | 2793 ff. | `C25_write_through_refuted` |
| `operator=(U&&)` and the converting assignments verify the result; copy and move assignment do not | 2113, 2907 | modelled, stated in C25 |
| iterator `<=`, `>=` and `it - it` lack the check that `<` and `>` have | 2404–2506 | `C36_unchecked_refuted` |
| copyable T with a deleted move constructor: the option's move is ignored and copies instead of being deleted | 2333–2399 | `C42_deleted_move_refuted` |
| `option<option<const bool>>`: the strategy reads `option_traits<T>` where the storage uses `option_traits<const T>` | 994–1138 | `C44_const_refuted` |
| documentation: `string_view` range off by one, `References` 255 against 256 levels, `vector` row | docs/builtin_traits.md | `C45_doc_string_view_refuted`, `C45_doc_reference_refuted`, `C45_doc_vector_refuted` |
| documentation: hash of an empty option is documented as −96391, the code returns 0 | 4052–4093 | `C75_documented_value_refuted` |
| documentation: `noexcept` of move assignment omits references | docs/reference.md | stated in C47 |
| `operator=(const option<U>&)` for references casts the referent to `option<U>&&`: it does not compile, or, if the referent can be made of an option (`std::any`), the option refers to a temporary that is gone after the call | 2932–2940 | `C99_assign_option_refuted`, `C99_assign_option_fails`, `C99_assign_option_lvalue`, `C99_assign_option_dangles_refuted` |
| `std::is_constructible_v<option<int&&>, const option<int>&>` is true, but the constructor does not compile | 2767–2773, 2873–2886 | `C99_from_option_compiles`, `C99_from_option_compiles_refuted` |
| `option<int&&> r = option<int>{1};` compiles and refers to the inside of the temporary option | 2767–2773, 2887–2901 | `C99_from_option_outside_refuted` |
| `get<T>(option<OptT>&&)` casts to the wrong type and does not compile | 3478, 3480 | `C57_get_by_type_rvalue`, `C57_get_by_type_refuted` |
| tuple/pair of `S&` with `PADDING` does not compile | 1500 | — |
| enum with underlying `bool` that names only `false`: the unnamed `true` is level 0 and the other levels are bytes that are not values of the type; if `true` is named it is every candidate but the last, so there are no levels | 1515–1540 | — |
| `a.emplace(*a)` reads a destroyed object | 3002 | excluded by the rules for arguments |
| `flatten(const option<option<T>>&)` binds `T&` to a const value and does not compile | 3406 | `C57_flatten_const` |
| `flatten` of an lvalue with `int&&` inside, documented to give `option<int&&>`, does not compile | 3406 | `C57_flatten_rvalue_reference`, `C57_flatten_refuted` |
| `flatten` stops at `option<const option<T>>` | 3408 | `C57_flatten_stops_refuted` |
| `get<I>(option<tuple<int&>>&&)` and `at` on an rvalue span give `option<int&&>` to an object that is referred to by an lvalue; so does `get<I>` of a temporary `option<tuple<...>&>`: `std::string s = *opt::get<0>(opt::at(v, 1))` empties the string in `v` | 3441, 3576 | `C57_get_refuted`, `C57_get_element_refuted` |
| `value_or` (and `operator\|`) on an rvalue `option<const T>` casts away const and does not compile | 3180 | `C56_value_or_refuted` |
| `value_or` of `option<X&&>` accepts an lvalue default and returns it as an rvalue | 3173, 3182 | `C56_value_or_default_refuted` |
| `inspect` on an rvalue option passes an rvalue (as documented): a callback that takes its parameter by value moves the value out of the option that the chain goes on with | 2617 | `C56_inspect_moves` |
| documentation: `operator*() &&`, `get_unchecked() &&`, `value() &&` are printed with `std::remove_reference_t<T>&&`; for `option<X&>` the code returns an lvalue | 3116, 3142, 3166 | `C56_documented_refuted` |
| the overload `swap(option<T>&, option<U>&)` asks `is_swappable_with<T, U>`, which is about rvalues: it is never enabled for ordinary T, `std::swap` is called, and the member `swap` is never `noexcept` | 2632–2645, 3402 | `C58_never_enabled`, `C58_std_swap` |
| for `option<X&>` that overload is enabled, and `using std::swap; swap(a, b)` is ambiguous (two template parameters: it is not more specialized than `std::swap`) | 3402 | `C58_reference_ambiguous` |
| documentation: member `swap` is said to call `swap(get(), other.get())`; for references the pointers are exchanged, not the referents | 3253 | — |
| `option<option<int>>{some(none)} == option<int>{}`: the option/option overload is taken, not option/value | 3738 ff. | modelled in C34 |
| `unzip` of `option<tuple<>>` forgets whether it was engaged | 3416 | modelled in C31 |
| the converting constructors of `option<T&>` are never enabled: `always_non_explicit` has no member `constructor_is_explicit` | 2648, 2876–2901 | `C49_reference_conversion_refuted` |
| the in-place constructor of `option<T&>` takes any tag and any one argument | 2764 | `C49_in_place_reference_refuted` |
| documentation: the printed `can_bind_reference` groups `&&` and `\|\|` the wrong way | docs/reference.md | `C49_printed_binding_refuted` |
| documentation: the converting move constructor asks `is_convertible_v<T, U&&>`; the variadic constructor omits the exclusion of `in_place` and the second argument | docs/reference.md | stated in C49 |
| C++17 aggregates: the value and the converting constructor are both enabled, and which is chosen depends on the value category | 2843–2901 | `C50_aggregate_refuted` |
| Nested options ending in bool: an option<option<bool>> made from an empty option<option<short>> is engaged (its inner option is empty), and option<bool> accepts an option<option<short>>, testing the inner option | 2697–2725, 3022 | `C50_bool_refuted`, `C50_nested_bool` |
| `is >> io(x)` does not exist although `os << io(x)` does | 3515–3574 | — |
| `option<std::pair<const A, B>>` (a `std::map` element) does not compile when `const A` has more levels than `B`, e.g. `pair<const float, int>`: the level would be written through a pointer to const | 1282–1312, 1250 | `C54_const_member_refuted`, `C54_const_first` |
| documentation: "Enumeration" does not say that the underlying type must be unsigned; `enum class E { a }` gets no levels | 1121 | `C54_signed_enum_refuted` |
| documentation: `std::reference_wrapper` is said to be enabled only if it has the size of a pointer; there is no such condition (another size fails a `static_assert`) | 1014, 779 | — |
| tuple-like types whose `get` returns by value (`std::ranges::subrange`) do not compile once an element has levels: `tuple_like_get` binds `auto&` | 938–950 | — |
| the iterator tests form pointers outside the one-element range (`++(--a.begin())`; `it += 2` past the end), which is undefined behaviour | test/option.test.cpp 883, 933 | `it_dec` and `it_add` of `Iter` give `UB` |
| `option_traits.test.cpp` is not part of any test target and no longer matches the header | test/CMakeLists.txt | `C83_traits_test_refuted` |
| the aggregate test is compiled only under `OPTION_HAS_BOOST_PFR`, which nothing defines; its last check would fail | test/special.test.cpp | `aggregate_with_empty_member` of `TestsTraits` |
| visualizer: an `option<double>` holding the NaN pattern of the other build (quiet/signalling) is shown as [none] | option.natvis 62–131 | `C59_nan_refuted` |
| visualizer: `option<int C::*>` is taken for a pointer (the name ends with a star) and 8 bytes are read from 4 | option.natvis 180 | `C59_member_pointer_refuted` |
| visualizer: the entries for `sentinel`, `member`, `enforce` use a member `value`; in the header it is called `m` | option.natvis 199–229, option.hpp 3900 | `C59_sentinel_refuted` |
| visualizer, 32-bit: empty pointers are shown as values, empty `option<option<double>>` likewise (line 114 reads `uint32_t`), the string entries read beyond the object | option.natvis 114, 133–174, 184 | `C59_pointer32_refuted`, `C59_double32_refuted`, `C59_string32_refuted` |
| guide: "when x is -1, the option is empty" holds only if also y is the level: x = -1, y = 1 is a present `option<my_type>` | docs/custom_traits_guide.md 61 | `C60_minus_one_refuted` |
| guide: `set_level` of `my_type_4` compares (`value->x == -1;`) where it should assign, so that no empty option can be made (verification failure) | docs/custom_traits_guide.md 234 | `C60_my_type_4_refuted` |
| guide: after `a.get_unchecked().y = 10` the option is said to be empty; it is not. In the last comment x and z are exchanged | docs/custom_traits_guide.md 258–268 | `C60_my_type_4_meant` |
| guide: `x + 1` in `my_type_3<T>` overflows for the largest int; for unsigned char and short no level is ever read back | docs/custom_traits_guide.md 158–163 | `C60_my_type_3_overflow_refuted`, `C60_my_type_3_narrow_refuted` |
| reference: `value->x - 100` in the as_option example overflows for x < INT_MIN + 100 | docs/reference.md 1245–1268 | `C60_hundred_refuted` |
| reference: says direct-list-initialization throughout; `option<vector<int>>(3, 1)` holds three elements | docs/reference.md 51–428, option.hpp 1923 | `C61_reference_refuted` |
| C++20: the constructors still use braces for aggregates, but are enabled by parentheses, so narrowing arguments are errors inside the library although `emplace` takes them; the feature list says there is no difference to `std::optional` | 1837, 2845–2868, docs/feature_list.md 76 | `C61_cxx20_refuted`, `C61_cxx20_errors` |
| `option<std::array<int, 3>>(1, 2, 3)` and `emplace(1, 2, 3)` work in C++17 and do not compile in C++20 | 648–650, 1837 | `C61_array` |
| wrappers (`sentinel`, `enforce`, …): `m{args...}` under a constraint about parentheses: `option<sentinel<unsigned, 0u>> a = 1;` is an error inside the library | 3902–3904 | `C62_narrowing_refuted` |
| wrappers around containers build another value than the container's constructor | 3904 | `C62_container_refuted` |
| wrappers: `operator=(U&&)` is hidden by the derived classes, so that `enforce<std::string>` cannot be assigned a literal | 3917–3921, 3930 | `C62_literal_refuted` |
| reference: "if func1() returns -1, it returns an empty option"; the constructor's verification fails | docs/reference.md 2349 | `C62_returned_sentinel_refuted` |
| typestate annotations: `reset`, `swap` and `take_if` have none, so Clang goes on to assume a value; after a move the source counts as engaged even if it was empty; an option converted from `option<U>` counts as empty | 2873–2901, 2996, 3042, 3253 | `C63_reset_refuted`, `C63_swap_refuted`, `C63_take_if_refuted`, `C63_move_refuted`, `C63_converted_refuted` |
| no `option<T>` stored without a flag can be default constructed, or made from `none`, in a constant expression, in any standard: `set_level` assigns to the inactive union member; `option<bool>`, of pointers, floats, and of options cannot be used there at all in builds that evaluate OPTION_VERIFY (the functions use memcpy, some though declared constexpr) | 1165–1500, 1536, 1569–1590, 1724, 2010, 2061, 3288 | `C64_no_default`, `C64_bool_refuted`, `C64_default_refuted`, `C64_nested` |
| the code generation test: `10..14` and `10..<14` mean the same, the end is never included | test/codegen/run.py 108–111 | `C66_range`, `C66_range_end` |
| the code generation test drops every line that contains `nop`, so that calls of functions with `nop` in their name are accepted anywhere | test/codegen/run.py 42 | `C68_calls_refuted` |
| its parser takes `f(std::function<int` for the name of `f(std::function<int(int)>)`, and does not rewrite the second number of `16,32` | test/codegen/run.py 38, 47 | `C68_name_refuted`, `C68_numbers_refuted` |
| `option<int> a = 5; a = {};` stores 0 instead of emptying `a`: `from_value_assign` lacks std::optional's exclusion of scalars | 2903–2916 | `C70_braces`, `C70_braces_refuted` |
| `option<const int&> a; a = {};` compiles and stores a reference to a temporary | 2913–2930 | `C70_braces_reference`, `C70_braces_reference_refuted` |
| swapping nested options moves T three times where std::optional calls T's `swap` once | 3253, 3402 | `C69_nested_swap_refuted` |
| after `option<option<int>> a = b;` with an empty `option<int> b`, `a == b` is false: conversion adds layers outside, comparison looks for them inside (std::optional does the same) | 2842, 3737 | `C71_converted`, `C71_converted_refuted` |
| `OPTION_PFR_FILE` alone (docs: used if `OPTION_USE_PFR` is not 0): boost.pfr is included but `OPTION_PFR_NAMESPACE` is never defined, so code that uses it does not compile; a standalone pfr file is included and not used | 143–149, 833, 1349 | `C73_file_alone_exact`, `C73_namespace_refuted` |
| an `OPTION_PFR_FILE` that does not exist is ignored; documented as an `#error` | 143, docs/macros.md | `C73_missing_file_refuted` |
| `OPTION_USE_PFR` defined as 1, its documented default, without a file is an error where boost.pfr is installed | 120–138, docs/macros.md | `C73_default_refuted` |
| in a release build with Intel's or an unknown compiler `OPTION_VERIFY` does nothing; documented as assuming the condition | 217–231 | `C74_release` |
| without exceptions value_or_throw() of an empty option is undefined in a release build, and in a debug build if the debugger resumes (a `[[noreturn]]` function returns) | 2523–2531 | `C74_no_exceptions` |
| two options of references to equal objects compare equal but hash differently (== looks at the objects, the hash at the addresses), so they cannot be keys of hash tables | 3737, 4082–4093 | `C75_reference_refuted` |
| impl::invoke with a pointer to a member of std::reference_wrapper and a reference_wrapper looks for the member in the object referred to (std::invoke uses the wrapper) | 637–647 | `C76_own_member_refuted` |
| The iterators of an empty option are null and fail a check on `+ 0`, `<`, `>` and `operator->`, which a contiguous range allows: `std::span(o)`, `std::ranges::next(first, last)` | 2423–2495 | `C77_empty_exact`, `C77_empty_refuted` |
| `end()` is documented as `begin() + has_value()`: for an empty option that expression fails a check | docs/reference.md 1086, 2457 | `C77_end_exact`, `C77_end_refuted` |
| The code equivalent of `map` uses deduction: for a function that returns an option it would not add a layer, for one that returns a reference it would copy; likewise `unzip` (members that are options, const or references) and `zip` (references, a single tuple) | docs/reference.md 941, 1117, 1626 | `C78_map_exact`, `C78_unzip_exact`, `C78_zip_exact`, `C78_documented_refuted` |
| `a.emplace(*a)` loses its argument: `reset()` runs first, so a check fails when the empty state is inside T, and a T with a destructor is read after its destruction; with a separate flag the value survives | option.hpp 3000–3006 | `C80_emplace_own`, `C80_own_ex` |
| `a.filter(p)` fails a check if p empties a and answers yes | option.hpp 2625–2629 | `C81_filter_stops`, `C81_filter_refuted` |
| `OPTION_USE_NATSTEPFILTER` is documented as TRUE by default; it is FALSE in the source tree and on in an installed package (the note on it names a variable `USE_NATSTEPFILTER` that does not exist) | CMakeLists.txt 13, cmake/option-config.cmake.in 8, docs/cmake_variables.md 57–64 | `C83_natstepfilter_refuted`, `C84_same_files_refuted` |
| The documented target `option-examples` does not exist | examples/CMakeLists.txt, docs/cmake_variables.md 23 | `C83_examples_refuted` |
| `USE_SANITIZER` has no effect: test/CMakeLists.txt does not include cmake/sanitizers.cmake | CMakeLists.txt 9, docs/cmake_variables.md 26–33 | `C83_sanitizer_ignored` |
| With `OPTION_INSTALL` there are no tests and examples, also if asked for | CMakeLists.txt 39–61 | `C83_install_refuted` |
| `option-codegen-test` is on by default also for projects that add the library, and then part of their default build; the setting is not documented | CMakeLists.txt 8 | `C84_default_build_refuted` |
| If Boost.PFR or libassert is found as a package (`FIND_PACKAGE_ARGS`) the targets `boost_pfr`, `libassert-lib`, `cpptrace-lib` do not exist and the configuration stops | test/CMakeLists.txt 35–71 | `C83_packages_refuted` |
| With another `CMAKE_INSTALL_INCLUDEDIR` the package names `<prefix>/include` too, where nothing is installed | CMakeLists.txt 27–30, 61–112 | `C84_include_refuted` |
| The installed config file contains the absolute data directory of the configuration run, so `cmake --install --prefix` elsewhere breaks the debugger files | cmake/option-config.cmake.in | — |
| The test uses doctest, the documentation says GoogleTest; `SHOW_TIME` of `add_clang_tidy_target` is ignored; README.md writes `FetcnhContet_Declare` | docs/cmake_variables.md 15, cmake/clang_tidy.cmake | `C83_test` |
| with the STL of Microsoft and elements of 9 to 16 bytes (the `static_assert` on the size passes), an option that holds an empty string looks empty | 1621–1668 | `C88_large_elements_refuted`, `C88_exact` |
| documentation: an unused state of `std::basic_string` has `capacity() == 0`; with libstdc++ only the pointer to the characters is set to null | docs/builtin_traits.md 18, option.hpp 1684–1707 | `C88_gnu_capacity`, `C88_gnu_capacity_refuted` |
| README: `(*****b).reset()` on an `option` of five layers calls `float::reset` and does not compile; the other statements dereference the empty `b`; the comment says `bool` where `float` is meant | README.md 119–128 | `C89_readme_float_refuted` |
| `it == cit`, `it < cit` and `it - cit` with an iterator on the left and a const iterator on the right do not compile (only `==` and `!=` do, in C++20 without P2468); the other order does. The tests only have the other order | include/opt/option.hpp 2477-2505, test/option.test.cpp 938-946 | `C90_mixes_refuted`, `C90_operators_exact` |
| test/cmake/ExternalProject lacks `add_dependencies`: its target may be compiled before the library is downloaded | test/cmake/ExternalProject/CMakeLists.txt | C91_external_refuted |
| The compiler of Intel is listed as tested with sanitizers; its job sets none | README.md, .github/workflows/ci.yml | C92_intel_refuted |
| The ClangCL jobs link the libraries of the address sanitizer but do not compile with it; `x32_options` and `cmake_options_x32` are used and never set | .github/workflows/ci.yml | C91_sanitized, reading of ci.yml |
| By Clang's rules what is guarded by a test of an option made from an option<U>, or of a parameter by value, is unreachable and not looked at | 275–293, 2881 | C93_converted_refuted, C93_parameter_refuted |
| By Clang's rules an access in a handler gives no warning, and `while (a) { *a; a.reset(); }` gives one | 275–293, 3017–3124 | C93_handler_refuted, C93_loop, C93_loop_false_alarm |
| `swap` of an `option<T>` and an `option<U>` can be noexcept (and is so documented) although constructing U from T may throw: std::terminate | 2640-2647, 3264, 3268 | C94_mixed_refuted |
| `at`, `at_front`, `at_back` are noexcept also for containers whose access makes an object and may throw: std::terminate | 3577-3600 | C94_at_refuted |
| The level hooks of `opt::sentinel` are noexcept although operator== and operator= of T may throw: has_value() ends the program | 3934-3953 | C94_sentinel_refuted |
| `get_unchecked`, `inspect`, `operator\|=`, `flatten` of an lvalue, `map` and `zip_with` give references into an argument that is not marked `OPTION_LIFETIMEBOUND`; so do `value_or`, `value_or_construct`, `emplace` and `try_emplace` of an option of references, which accept temporaries | 3050–3057, 3126–3157, 3169–3193, 3000–3015, 3238–3245, 3406–3414 | `C96_unmarked_refuted` |
| `get()` and the others are marked for options of references too, whose results do not lie in the option: a warning without reason | 3060–3121 | `C96_inside_refuted` |
| `at(vector{…}, 0).filter(f)` keeps a reference to a temporary without a warning | 3220–3227 | `C96_no_warning_refuted` |
| `get()`, `operator*` and `operator->` are declared pure, so a compiler may drop a call whose result is not used together with the check in it | 3060–3121 | `C97_check_refuted` |
| `at` is declared pure, but on a `std::map` with integer keys its `operator[]` inserts | 3577–3582 | `C97_at_refuted` |
| changing a member of the contained object may write the byte that `has_value()` reads, a data race where `std::optional` has none | 1938–2101 | `C98_member_refuted` |
| `option<const int&>(std::in_place, d)`, `emplace(d)` and `try_emplace(d)` with a `double d` keep a pointer to a temporary that is gone after the call | 2306–2328, 2764, 3000–3015 | `C99_in_place`, `C99_in_place_refuted` |
| `option<int&&>` accepts `std::ref(i)`, although `int&&` cannot be initialised with it: the option moves from an object that was passed as an lvalue | 2742–2757 | `C99_language_refuted` |
| `option<T&>` takes neither a `const std::reference_wrapper<T>` nor a `reference_wrapper` of a derived class, although `T&` does; an `option<X>&` can be assigned to an `option<option<X>&>` but not given to its constructor | 2742–2790 | `C99_complete_refuted`, `C99_derived_wrapper_refuted`, `C99_option_refuted` |
| libstdc++ with `_GLIBCXX_USE_CXX11_ABI=0`: `inline _GLIBCXX_BEGIN_NAMESPACE_CXX11` becomes `inline template<…>`, so the header does not compile unless `OPTION_FORWARD_DECLARE_STD` is 0 | 313, 336–339 | `C101_old_strings`, `C101_old_strings_refuted` |
| libstdc++ with `_GLIBCXX_DEBUG`: the header declares a second `std::vector` beside the one in `std::__debug`, so the name is ambiguous | 341–342 | `C101_debug`, `C101_debug_refuted` |
| documentation: for errors in the declarations of std the macro `OPTION_FORWARD_DECLARE_STD` should be set to `1`, its default; `0` is meant | docs/macros.md 36 | `C101_one_meaning`, `C101_exact` |
| step filter: `std::hash` of an option is stepped into, although the header defines it; the members of a user's own `option_traits` are not | option.natstepfilter 4, option.hpp 4070–4093 | `C102_hash_refuted`, `C102_traits_refuted` |
| `std::reference_wrapper` (`<functional>`), `std::ptrdiff_t` (`<cstddef>`) and, with `OPTION_FORWARD_DECLARE_STD=0`, the iterator tags (`<iterator>`) are used, and no included header has to declare them | 640, 2413, 2410 | `C103_declared`, `C103_missing_refuted` |
| `<ciso646>` is included in C++20 as well, which has no such header | 8 | `C103_headers_refuted` |
| without `__type_pack_element` (GCC before 14) `tuple_element_t` of a `std::tuple` is formed for tuple-like classes; nothing included has to define `std::tuple` | 822 | `C103_tuple_refuted` |
| `sentinel_option_traits` specialised for a `sentinel`, `sentinel_f`, `member` or `enforce` type makes two partial specialisations match: it does not compile without a full specialisation too | 1776, 3957, 3998, 4016, 4036 | `C104_wrapper_refuted` |
| `sentinel_option_traits` specialised after the first use of the option is ignored, nothing checks it | 1776 | `C104_late_refuted` |
| the same after the first use of `option<enforce<T>>` only | 1776, 4038 | `C104_inner_late_refuted` |
| `OPTION_USE_QUIET_NAN` is documented but not used | docs/macros.md | — |

## 5. Testing the theorems

`seeded/LOG.jsonl` records edits of the model that a realistic bug would make: which definition, which
edit, which claim it falsifies, which theorems stopped proving and what was tightened.

Entries named `auto-…` come from a program that edits one token at a time. For these the model was rebuilt up to
the first lemma that fails (`lemmas_failed`), and `failed` lists the theorems whose proofs use that lemma. For all other
entries the whole of the scratch copy was rebuilt with the failing proofs cut out, and `failed` lists the theorems that
then depend on them. Entries with an empty `failed` survived: `note` says why, and `tightened` names the theorems that were
changed or added because of them.
