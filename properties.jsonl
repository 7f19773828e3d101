{"id": "C01", "title": "An option made empty reads as empty, at every nesting depth", "statement": "For every supported T (including option<option<...>> nested to any depth and options inside pairs, tuples, arrays and structs), after default construction, construction from none, reset() or assignment of none, has_value() is false, whatever bytes were in the storage before, and none of these operations trips an internal check.", "quantifier": "all type expressions built from the modelled type constructors, all prior storage contents", "why_tests_cant": "Tests instantiate a few dozen types and depths; the guarantee is by composition of traits over an infinite family of types and all 2^(8*sizeof) prior contents.", "anchors": ["include/opt/option.hpp:option_destruct_base", "include/opt/option.hpp:option::reset", "include/opt/option.hpp:internal_option_traits"]}
{"id": "C02", "title": "A stored value reads back as present and unchanged", "statement": "For every supported T and every valid value v of T, an option<T> constructed from v (or emplaced, or assigned, over any prior storage contents) has has_value()==true and get() yields v; the internal check after construction does not fire.", "quantifier": "all modelled types, all valid values of the type, all prior storage contents", "why_tests_cant": "The value space of pointers, doubles, nested aggregates cannot be enumerated, and a single colliding bit pattern would silently turn a value into none.", "anchors": ["include/opt/option.hpp:option_destruct_base::construct", "include/opt/option.hpp:internal_option_traits::get_level"]}
{"id": "C03", "title": "All logical states of a nested option are distinguishable", "statement": "In option<option<...<T>...>> the states none, some(none), some(some(none)), ..., and some(...some(v)...) for all v are pairwise distinct as observed through has_value()/get() at each layer: no object representation stands for two different logical states, and emptying layer k leaves layers above it engaged and layer k empty.", "quantifier": "all nesting depths, all modelled T, all object representations", "why_tests_cant": "Depth is unbounded and level sharing between layers is arithmetic modulo 2^64; tests check a few depths of a few types.", "anchors": ["include/opt/option.hpp:internal_option_traits<opt::option<T>, avaliable_option>", "include/opt/option.hpp:unavaliable_option", "include/opt/option.hpp:reference_option"]}
{"id": "C04", "title": "Zero-overhead size guarantee and its exact limit", "statement": "sizeof(option<T>) == sizeof(T) exactly when T has at least one unused state; wrapping T in k options keeps sizeof equal to sizeof(T) for every k up to T's number of levels, and the next wrap adds exactly one alignment unit (a flag), which in turn provides 254 further free levels.", "quantifier": "all modelled T, all numbers of wraps", "why_tests_cant": "Tests check sizeof for particular instantiations; the law for all k and T needs induction.", "anchors": ["include/opt/option.hpp:option_destruct_base", "include/opt/option.hpp:dispatch_specializations<opt::option<T>>", "docs/builtin_traits.md"]}
{"id": "C05", "title": "Level round trip for every built-in trait", "statement": "For every built-in option trait, every level l below max_level and any prior bytes of the object, set_level(l) followed by get_level() returns l.", "quantifier": "all modelled types (any composition), all levels below max_level, all prior object bytes", "why_tests_cant": "Up to 2^64 levels and all prior contents; tests check three or four levels per trait.", "anchors": ["include/opt/option.hpp:internal_option_traits"]}
{"id": "C06", "title": "Valid values never look like an unused level", "statement": "For every built-in option trait and every valid value of the type, get_level() returns at least max_level, so neither the option itself nor any outer option wrapped around it mistakes the value for none.", "quantifier": "all modelled types, all valid values", "why_tests_cant": "Quantifies over all values; has_value tests only catch a collision on the sampled values.", "anchors": ["include/opt/option.hpp:internal_option_traits", "docs/custom_traits_guide.md"]}
{"id": "C07", "title": "Making an option empty only touches the bytes that carry the level", "statement": "set_level (hence reset() of a trivially destructible T, and default construction) changes only the bytes of the one sub-object selected to carry the level; every other byte of the object, and every byte outside it, keeps its value.", "quantifier": "all modelled types, all levels, all byte positions", "why_tests_cant": "A frame property over every byte position and every layout.", "anchors": ["include/opt/option.hpp:ptr_bit_copy", "include/opt/option.hpp:ptr_bit_copy_least", "include/opt/option.hpp:internal_option_traits"]}
{"id": "C08", "title": "Every usable 64-bit pointer is storable", "statement": "option<T*> on a 64-bit platform can hold the null pointer and every canonical address under both 48-bit and 57-bit virtual addressing (user and kernel half); the reserved range consists only of non-canonical addresses. On 32-bit platforms exactly 32 addresses in [0xFFFFFFC0,0xFFFFFFDF] are reserved, and null and the Windows pseudo handles (-1..-6) are storable.", "quantifier": "all 2^64 (2^32) pointer bit patterns", "why_tests_cant": "2^64 addresses.", "anchors": ["include/opt/option.hpp:internal_option_traits<T, option_strategy::pointer_64>", "include/opt/option.hpp:pointer_32"]}
{"id": "C09", "title": "Every finite, infinite and hardware-generated floating value is storable", "statement": "For option<double>/option<float> (signalling- or quiet-NaN strategy) every zero, subnormal, normal, infinity and every NaN outside one block of 256 bit patterns is storable; the reserved block consists only of negative NaNs (signalling, respectively quiet) and excludes the default quiet NaNs of x86 and ARM.", "quantifier": "all 2^64 / 2^32 floating-point bit patterns", "why_tests_cant": "2^64 bit patterns.", "anchors": ["include/opt/option.hpp:float64_sNaN", "include/opt/option.hpp:float64_qNaN", "include/opt/option.hpp:float32_sNaN", "include/opt/option.hpp:float32_qNaN"]}
{"id": "C10", "title": "Reflected enums: all flag combinations are storable", "statement": "For an unsigned enum handled by enumerator reflection, every named enumerator, and every bitwise-or combination of named enumerators below the probe limit, is a storable value; every unused level lies at or above the next power of two and below the probe limit, and the rounding computed by the code is the least power of two not below largest-named+1.", "quantifier": "all sets of named enumerators, all finite subsets combined by bitwise or, all levels", "why_tests_cant": "All subsets of up to 1024 enumerators.", "anchors": ["include/opt/option.hpp:max_enum_value_impl2", "include/opt/option.hpp:internal_option_traits<T, option_strategy::enumeration>"]}
{"id": "C11", "title": "Enum SENTINEL / SENTINEL_START / SENTINEL_END reserve exactly the declared values", "statement": "With ::SENTINEL only that value reads as empty; with ::SENTINEL_START (and ::SENTINEL_END) exactly the values of the declared range are reserved, in order, one per level; the level computation must not itself be undefined for any enum value.", "quantifier": "all underlying types (width, signedness), all sentinel values, all enum values", "why_tests_cant": "All pairs (sentinel, value) of up to 64-bit integers; overflow appears only at extreme pairs.", "anchors": ["include/opt/option.hpp:enumeration_sentinel", "include/opt/option.hpp:enumeration_sentinel_start", "include/opt/option.hpp:enumeration_sentinel_start_end"]}
{"id": "C12", "title": "Aggregates store their level in the member with the most levels", "statement": "option<pair>, option<tuple>, option<struct>: the number of levels is the maximum over members; the carrying member is the first one with the maximum for tuple/struct and, for pair, first only if strictly larger; std::array and std::complex use element 0 / the real part. Values of aggregates are valid as soon as the carrying member is.", "quantifier": "all member lists (any length), all member types", "why_tests_cant": "Quantifies over all tuples.", "anchors": ["include/opt/option.hpp:index_of_max", "include/opt/option.hpp:find_max_level", "include/opt/option.hpp:internal_option_traits<std::pair<First, Second>>"]}
{"id": "C13", "title": "Library and language types keep all their valid values", "statement": "std::string (all three supported standard libraries), std::vector, std::unique_ptr, std::string_view, std::reference_wrapper, polymorphic classes and member pointers: every valid object state (as characterised by the documented layout assumptions) is storable and distinguishable from all 255/256 levels.", "quantifier": "all object states satisfying the layout assumption, all levels", "why_tests_cant": "State space of internal pointers/sizes is unbounded for tests.", "anchors": ["include/opt/option.hpp:option_strategy::string", "include/opt/option.hpp:option_strategy::vector", "include/opt/option.hpp:option_strategy::unique_ptr", "include/opt/option.hpp:option_strategy::polymorphic", "include/opt/option.hpp:member_pointer_64"]}
{"id": "C14", "title": "A .PADDING member provides every level it advertises", "statement": "If a class provides an unsigned integer .PADDING member, then for each level below the advertised max_level, set_level then get_level returns that level, and an object with PADDING==0 is always a value.", "quantifier": "all PADDING member widths (8, 16, 32, 64 bits), all levels below max_level", "why_tests_cant": "For narrow members max_level is astronomically large because of integer promotion, so the failing levels are unreachable by compile-time nesting tests but visible to enclosing types that compare max_level.", "anchors": ["include/opt/option.hpp:internal_option_traits<T, option_strategy::padding_member>"]}
{"id": "C15", "title": "opt::sentinel reserves exactly the listed values", "statement": "option<sentinel<T, v0, ..., vn>> (pairwise distinct values): level i is represented by vi; a value is storable iff it is none of the vi; option nested up to n+1 times has no overhead; storing a vi is detected by the internal check rather than silently giving a wrong state.", "quantifier": "all value lists, all T with decidable equality, all depths", "why_tests_cant": "All value lists and all T.", "anchors": ["include/opt/option.hpp:sentinel_get_level_impl", "include/opt/option.hpp:sentinel_set_level_impl", "include/opt/option.hpp:option_traits<sentinel<T, Values...>>"]}
{"id": "C16", "title": "User hooks sentinel_option_traits, opt::sentinel_f, opt::member and opt::enforce obey the level contract", "statement": "If the user-supplied pieces satisfy their obvious obligations (the sentinel compares equal to itself; set(x, v) makes compare(x, v) true and no earlier compare true; the member's trait obeys the contract), the resulting trait obeys the level round trip and keeps all other values valid.", "quantifier": "all user-supplied comparison/set functions and values meeting the obligations", "why_tests_cant": "Quantifies over user code.", "anchors": ["include/opt/option.hpp:sentinel_option_traits", "include/opt/option.hpp:sentinel_f_get_level_impl", "include/opt/option.hpp:option_traits<member<T, MemberPtr>>", "include/opt/option.hpp:option_traits<enforce<T>>"]}
{"id": "C17", "title": "An object is alive exactly when has_value() says so, for every history", "statement": "After any sequence of API calls on any number of options (construct, copy, move, assign from none/value/option, emplace, try_emplace, reset, take, swap, destroy) with any pattern of exceptions that keeps has_value() truthful, has_value()==true iff a contained object is alive; no contained object is destroyed twice, leaked, read or assigned while dead; when all options are destroyed, constructions equal destructions.", "quantifier": "all finite call histories over any number of option objects, all storage strategies, all exception patterns", "why_tests_cant": "Histories are unbounded; tests count constructor calls for about twenty fixed short sequences.", "anchors": ["include/opt/option.hpp:option_destruct_base", "include/opt/option.hpp:option_assign_from_option", "include/opt/option.hpp:option", "test/lifetime.test.cpp"]}
{"id": "C18", "title": "Any call history behaves like a mathematical optional", "statement": "The observable results (has_value and value of every option, and every returned value) of any call history equal those of the same history interpreted on plain mathematical optional values.", "quantifier": "all finite call histories, all initial states, all storage strategies (flag, level, reference)", "why_tests_cant": "Refinement over unbounded histories.", "anchors": ["include/opt/option.hpp:option", "include/opt/option.hpp:option_base"]}
{"id": "C19", "title": "Assignment performs exactly one of construct / assign / destroy", "statement": "Copy, move, converting and value assignment perform: nothing when both sides are empty; exactly one destruction when only the target is engaged; exactly one construction when only the source is; exactly one assignment (and no construction or destruction) when both are (for scalar T value-assignment re-constructs in place).", "quantifier": "all combinations of states, all storage strategies", "why_tests_cant": "Tests count for chosen types only; the table must hold for each of the 16 specialisations x 4 storage bases.", "anchors": ["include/opt/option.hpp:option_assign_from_option", "include/opt/option.hpp:option::operator="]}
{"id": "C20", "title": "Exceptions thrown by T leave the option in the documented state (flag storage)", "statement": "For a T without unused states: if T's constructor throws inside emplace/construct/assign-to-empty the option is empty; if T's assignment throws the option stays engaged; the source option is never emptied; the program can continue with all invariants intact.", "quantifier": "all operations, all states, all throw points", "why_tests_cant": "Every throw point in every history.", "anchors": ["include/opt/option.hpp:construct_at", "include/opt/option.hpp:option_destruct_base::construct", "include/opt/option.hpp:option::emplace"]}
{"id": "C21", "title": "Exceptions thrown by T leave the option empty when the unused state lives inside T (sentinel storage)", "statement": "For a T with unused states the same guarantee as for flag storage should hold: a constructor that throws part-way must leave the option empty, not engaged with a dead object.", "quantifier": "all operations, all states, all throw points, all partially written storage contents", "why_tests_cant": "Needs every partially written representation at every throw point.", "anchors": ["include/opt/option.hpp:option_destruct_base<T, false, true>::construct", "include/opt/option.hpp:construct_at"]}
{"id": "C22", "title": "Self-assignment and self-swap are harmless", "statement": "x = x (copy and move) and swap(x, x) keep has_value() and, for T whose self-assignment/self-swap is the identity, keep the value.", "quantifier": "all states, all storage strategies", "why_tests_cant": "All states x strategies including trivially-copied ones.", "anchors": ["include/opt/option.hpp:option_assign_from_option", "include/opt/option.hpp:option::swap"]}
{"id": "C23", "title": "swap exchanges any two options", "statement": "a.swap(b) exchanges the logical contents in all four engaged/empty combinations, for values and references, performs at most one move construction and one destruction, and swapping twice restores both.", "quantifier": "all pairs of states, all storage strategies", "why_tests_cant": "All pairs of states, both strategies on each side.", "anchors": ["include/opt/option.hpp:option::swap"]}
{"id": "C24", "title": "take and take_if move the value out exactly once", "statement": "take() returns the previous contents and leaves the option empty; take_if(p) calls p at most once, only when engaged, with the contained object; it takes iff p returned true, otherwise the (possibly mutated) value stays; the returned option is empty otherwise.", "quantifier": "all states, all predicates (including mutating and throwing ones)", "why_tests_cant": "All predicates and states.", "anchors": ["include/opt/option.hpp:option::take", "include/opt/option.hpp:option::take_if"]}
{"id": "C25", "title": "Storing an unused state is always detected", "statement": "If a constructor argument or assigned value equals the reserved none-representation, the operation ends in the library's check failure; it never returns normally with has_value()==false after a value store, nor with a state that reads back as a different value.", "quantifier": "all storing operations, all values", "why_tests_cant": "All values x operations.", "anchors": ["include/opt/option.hpp:OPTION_VERIFY", "include/opt/option.hpp:option_destruct_base::construct", "include/opt/option.hpp:option::operator="]}
{"id": "C26", "title": "Options of references rebind and never write through", "statement": "For option<T&>: assignment (from reference, reference_wrapper or another option) rebinds and never modifies any referred-to object; reset/none unbinds; copies refer to the same object; swap exchanges bindings; no operation on the option itself writes to the heap of referents.", "quantifier": "all histories over any number of reference options and referents", "why_tests_cant": "Unbounded histories with aliasing.", "anchors": ["include/opt/option.hpp:option_base</*is_reference=*/true>", "include/opt/option.hpp:option::operator="]}
{"id": "C27", "title": "Checked, throwing and unchecked access agree", "statement": "get(), operator*, operator-> return the contained value iff engaged and otherwise end in the check failure; value()/value_or_throw() return it iff engaged and otherwise throw bad_access with the option unchanged; ptr_or_null() is null iff empty; get_unchecked() equals get() when engaged.", "quantifier": "all states, all storage strategies", "why_tests_cant": "All T and states.", "anchors": ["include/opt/option.hpp:option::get", "include/opt/option.hpp:option::value_or_throw", "include/opt/option.hpp:option::ptr_or_null", "include/opt/option.hpp:option::get_unchecked"]}
{"id": "C28", "title": "Monadic operations call their callback exactly when they should", "statement": "map, and_then, map_or, map_or_else, has_value_and, inspect, filter, take_if, or_else, zip_with and option_cast invoke the relevant callback exactly once, with the contained value, iff the option is engaged (or_else / map_or_else-default: iff empty), and never otherwise; exceptions from callbacks propagate and leave the option as the callback left it.", "quantifier": "all callbacks (stateful, mutating, throwing), all states, all storage strategies", "why_tests_cant": "Quantifies over arbitrary callbacks.", "anchors": ["include/opt/option.hpp:impl::option::map", "include/opt/option.hpp:impl::option::and_then", "include/opt/option.hpp:impl::option::or_else", "include/opt/option.hpp:impl::option::filter"]}
{"id": "C29", "title": "Functor, monad and alternative laws", "statement": "map obeys identity and composition; and_then obeys left/right identity and associativity; or_else is associative with none as identity; map f = and_then (some . f); filter p = and_then (x -> p x ? some x : none).", "quantifier": "all options, all (also effectful) callbacks", "why_tests_cant": "Equational laws over all functions.", "anchors": ["include/opt/option.hpp:impl::option::map", "include/opt/option.hpp:impl::option::and_then"]}
{"id": "C30", "title": "Default-providing accessors are total and lazy where promised", "statement": "value_or(d) and operator| return the value or d; value_or_construct builds the default only when empty; map_or / map_or_else return f(value) or the default / default() and evaluate only that branch.", "quantifier": "all options, all defaults, all callbacks", "why_tests_cant": "All callbacks and states.", "anchors": ["include/opt/option.hpp:option::value_or", "include/opt/option.hpp:impl::option::value_or_construct", "include/opt/option.hpp:impl::option::map_or", "include/opt/option.hpp:impl::option::map_or_else"]}
{"id": "C31", "title": "zip, zip_with and unzip", "statement": "zip(o1..on) is engaged iff all are, holding the tuple of values in order; zip_with(f, ...) = map f over zip and calls f at most once; unzip(zip(o1..on)) returns the originals when all are engaged and all-empty otherwise; zip(unzip(o)) == o for non-empty tuples; all for any n.", "quantifier": "all arities, all options", "why_tests_cant": "Variadic: all n.", "anchors": ["include/opt/option.hpp:zip", "include/opt/option.hpp:zip_with", "include/opt/option.hpp:unzip_impl"]}
{"id": "C32", "title": "flatten collapses any nesting depth", "statement": "flatten of an n-fold nested option is engaged iff every layer is, with the innermost value; on a singly nested option it is the identity.", "quantifier": "all depths, all states", "why_tests_cant": "Recursion over unbounded depth.", "anchors": ["include/opt/option.hpp:flatten"]}
{"id": "C33", "title": "Operators |, &, ^ and |= form the expected algebra", "statement": "a|b is the first engaged of a and b (associative, none is identity, idempotent); a&b is b if a is engaged else none (associative, none absorbs); a^b is the engaged one iff exactly one is (has_value is xor; none identity; a^a none); a|=b changes a only when empty; the const/rvalue overloads agree on the result.", "quantifier": "all options", "why_tests_cant": "Algebraic laws over all states and T.", "anchors": ["include/opt/option.hpp:operator|", "include/opt/option.hpp:operator&", "include/opt/option.hpp:operator^", "include/opt/option.hpp:operator|="]}
{"id": "C34", "title": "Comparisons form a consistent total order with none smallest", "statement": "The six relational operators between options, between option and none and between option and value agree with each other (a<b iff b>a iff !(a>=b) ..., option(v) op x same as v op x), none is smaller than every engaged option, and if T's operators form a strict weak/total order so do the option's.", "quantifier": "all options, all values, all T with consistent operators", "why_tests_cant": "24 overloads, transitivity over all triples.", "anchors": ["include/opt/option.hpp:operator==", "include/opt/option.hpp:operator<", "include/opt/option.hpp:operator<="]}
{"id": "C35", "title": "Equal options hash equally", "statement": "If a == b then hash(a) == hash(b); an engaged option hashes like its value; for reference options the hash depends only on the referred address and distinguishes by binding, not by referred value.", "quantifier": "all options, all hash functions on T compatible with ==", "why_tests_cant": "All values.", "anchors": ["include/opt/option.hpp:std::hash<opt::option<T>>", "include/opt/option.hpp:std::hash<opt::option<T&>>"]}
{"id": "C36", "title": "Iterating an option visits exactly its value", "statement": "begin()..end() is a valid range of length 1 iff engaged and 0 iff empty; a loop over it visits exactly the contained object; iterator arithmetic satisfies the random access laws ((it+n)-n==it, (it+n)-it==n, order agrees with distance); operations on a value-initialised iterator that the code checks end in check failure.", "quantifier": "all states, all offsets", "why_tests_cant": "All offsets and positions.", "anchors": ["include/opt/option.hpp:option_iterator", "include/opt/option.hpp:option::begin", "include/opt/option.hpp:option::end"]}
{"id": "C37", "title": "Container lookups are in bounds", "statement": "at(c,i) is engaged iff i < size and refers to c[i]; at_front/at_back are engaged iff nonempty and refer to the first/last element; lookup(m,k) is engaged iff the key is present and refers to the mapped value (or element); none of them reads out of bounds or modifies the container.", "quantifier": "all containers, all indices and keys", "why_tests_cant": "All sizes and indices.", "anchors": ["include/opt/option.hpp:at", "include/opt/option.hpp:at_front", "include/opt/option.hpp:at_back", "include/opt/option.hpp:lookup"]}
{"id": "C38", "title": "get<I>, get<T> and variant get", "statement": "get<I>(option<tuple>) is engaged iff the option is and refers to element I; get<I>(variant) is engaged iff alternative I is active; get<T> iff the alternative of type T is active (T unique).", "quantifier": "all indices, all tuples/variants, all states", "why_tests_cant": "All indices and states.", "anchors": ["include/opt/option.hpp:get_impl", "include/opt/option.hpp:variant_get"]}
{"id": "C39", "title": "Stream output/input", "statement": "os << io(o) writes the value iff engaged and nothing otherwise; os << io(o, alt) writes the value or alt; is >> io(o, alt) reads into the contained value iff engaged, otherwise into alt; only that object changes.", "quantifier": "all options, all stream states", "why_tests_cant": "All streams.", "anchors": ["include/opt/option.hpp:io_helper1", "include/opt/option.hpp:io_helper2"]}
{"id": "C40", "title": "from_nullable and ptr_or_null are inverse; as_option reinterprets", "statement": "from_nullable(p).ptr_or_null() == p for every p including null, and from_nullable(o.ptr_or_null()) is bound like o; as_option(v) is engaged with v iff v is not the reserved level-0 pattern, else empty.", "quantifier": "all pointers, all values", "why_tests_cant": "All pointers/values.", "anchors": ["include/opt/option.hpp:from_nullable", "include/opt/option.hpp:option::ptr_or_null", "include/opt/option.hpp:as_option"]}
{"id": "C41", "title": "Converting construction, conversion and cast preserve emptiness", "statement": "option<T>(option<U>), assignment from option<U>, option_cast<T> and make_option: the result is engaged iff the source is and holds the converted value; the source's engagement is unchanged; the conversion runs exactly once iff engaged; composition of casts is the cast of the composition.", "quantifier": "all conversions (possibly throwing), all states", "why_tests_cant": "All conversions.", "anchors": ["include/opt/option.hpp:option::option", "include/opt/option.hpp:option_cast", "include/opt/option.hpp:make_option"]}
{"id": "C42", "title": "Special members are trivial, custom or deleted exactly as documented", "statement": "For all combinations of T's properties, option<T>'s copy/move constructor and assignment are deleted, trivial (defaulted) or custom exactly per the documented rules, and each combination selects exactly one template specialisation (no ambiguity, no gap).", "quantifier": "all combinations of type-trait values, including those the tests have no type for", "why_tests_cant": "Tests provide types for only some of the combinations.", "anchors": ["include/opt/option.hpp:option_base", "include/opt/option.hpp:enable_copy_move", "docs/reference.md"]}
{"id": "C43", "title": "Moving from an option keeps it engaged", "statement": "After move construction or move assignment from an engaged option the source is still engaged (holding a moved-from value); from an empty one it stays empty; rvalue overloads of value_or/map/and_then/filter/or_else never change engagement of the source by themselves.", "quantifier": "all states, all T (any moved-from value that is not the reserved pattern)", "why_tests_cant": "All T and states.", "anchors": ["include/opt/option.hpp:option_construct_from_option", "include/opt/option.hpp:option_assign_from_option", "docs/reference.md"]}
{"id": "C44", "title": "The strategy chosen for an outer option fits the layout of the inner option", "statement": "Whenever option<option<T>> uses the inner flag (respectively the inner value) to store its level, the inner option really has a flag (respectively keeps levels in the value), for every T including cv-qualified T.", "quantifier": "all T and cv-qualifications", "why_tests_cant": "Compile-time selection over all types; tests do not instantiate const inner types.", "anchors": ["include/opt/option.hpp:dispatch_specializations<opt::option<T>>", "include/opt/option.hpp:option_destruct_base", "include/opt/option.hpp:detemine_option_strategy"]}
{"id": "C45", "title": "The reserved ranges documented for users are the ones used", "statement": "The set of reserved bit patterns of each built-in trait equals the range stated in the documentation table, and its size equals max_level.", "quantifier": "all bit patterns of each scalar trait", "why_tests_cant": "Equality of sets over 2^32/2^64 patterns.", "anchors": ["docs/builtin_traits.md", "include/opt/option.hpp:internal_option_traits"]}
{"id": "C46", "title": "Levels survive byte-wise copying of options", "statement": "Copying the bytes of an option of trivially copyable type (the defaulted copy/move) yields an option with the same logical state at every nesting layer, regardless of the destination's prior contents.", "quantifier": "all modelled types, all logical states, all prior contents", "why_tests_cant": "All states and nestings.", "anchors": ["include/opt/option.hpp:option_base", "include/opt/option.hpp:option_destruct_base"]}
{"id": "C47", "title": "noexcept specifications are the documented ones", "statement": "For every combination of T's traits, option<T>'s copy/move constructor and assignment, when not deleted, are noexcept exactly when documented (for references at least then), at every nesting depth.", "quantifier": "all combinations of type-trait values, all nesting depths", "why_tests_cant": "Tests have types for a few combinations; a wrong noexcept turns an exception into std::terminate.", "anchors": ["include/opt/option.hpp:option_base", "docs/reference.md"]}
{"id": "C48", "title": "The scan of the printed enumerators finds the named ones", "statement": "For GCC, Clang (both branches) and MSVC output, max_enum_value_impl2 reads only inside the printed function name and returns 0 or the power of two above the largest named value; for any type name without a comma that leads to a parenthesis it never returns a bound at or below the value of a named enumerator (so no named enumerator is reserved).", "quantifier": "all enumerations, all enumerator and type names, all surrounding texts, four compiler dialects", "why_tests_cant": "A text scan over compiler output; tests instantiate a few enums with one compiler.", "anchors": ["include/opt/option.hpp:max_enum_value_impl2", "include/opt/option.hpp:max_enum_value_impl1", "include/opt/option.hpp:max_enum_value"]}
{"id": "C49", "title": "Constructors and assignments take part exactly when documented", "statement": "For every T, U and every answer of the compiler about them, each constructor and assignment template of option<T> is enabled, and explicit, exactly when the documentation says; the explicit and implicit declarations are never both enabled.", "quantifier": "all types (with references, const, volatile, reference_wrapper, in_place_t, nested options), all answers of the compiler's type traits, C++17 and C++20", "why_tests_cant": "A SFINAE condition over all pairs of types; tests instantiate a handful.", "anchors": ["include/opt/option.hpp:option_checks_base", "include/opt/option.hpp:check_option_like_ctor", "docs/reference.md"]}
{"id": "C50", "title": "Construction of an option from another option is unambiguous and matches layers from the inside", "statement": "For every T and U at most one of the value constructor and the converting constructors accepts an option<U> (same for assignment), for every value category; for nested options of depths k and m a conversion exists exactly when m <= k, converts the innermost m layers one by one and wraps the result in k - m engaged layers; option<bool> converts the contents rather than testing the source.", "quantifier": "all types, value categories and nesting depths", "why_tests_cant": "Depends on recursive overload resolution at every depth.", "anchors": ["include/opt/option.hpp:option_checks_base", "include/opt/option.hpp:option", "docs/reference.md"]}
{"id": "C51", "title": "Every type of the universe is a class of the lifetime model", "statement": "Each well-formed type with built-in or user-written traits, kept in bytes and nested in options to any depth, obeys the rules that the lifetime theorems ask of a class; so a program over such options never leaves the defined states, acts as the program over mathematical optionals and stops only on access to an empty option.", "quantifier": "all well-formed types, all triviality flags a C++ type can have, all nesting depths, all programs", "why_tests_cant": "Joins two models that were proved about separately; tests cover a few types and short programs.", "anchors": ["include/opt/option.hpp:option_traits", "include/opt/option.hpp:option_base", "include/opt/option.hpp:option_destruct_base"]}
{"id": "C52", "title": "The byte-level and the object-level descriptions of option agree", "statement": "For a type kept in bytes, each member of option leaves the bytes that stand for the object it leaves: has_value, get, default construction, reset, construction, assignment, emplace, try_emplace at every nesting depth; copies, moves, take and swap for T copied by its bytes. Every byte string is some storage, and every valid one a proper object with the value the user sees.", "quantifier": "all well-formed types, all storage contents, all nesting depths (copies: one layer)", "why_tests_cant": "A simulation between two descriptions over all states.", "anchors": ["include/opt/option.hpp:option_destruct_base", "include/opt/option.hpp:option_base", "include/opt/option.hpp:option"]}
{"id": "C53", "title": "Programs over options in one memory act on values", "statement": "A program that declares, copies, assigns, resets, emplaces, swaps and takes options located anywhere in memory, also options that are members of aggregates or the contents of other options, shows exactly what the program over the decoded values shows; it ends in OPTION_VERIFY exactly when the latter reads an empty option, is never undefined, and changes no byte outside the variables.", "quantifier": "all layouts, types, member paths, initial memory contents and programs", "why_tests_cant": "Interference between an option and the level stored inside its own member is only visible in programs that reach inside.", "anchors": ["include/opt/option.hpp:option", "include/opt/option.hpp:option_destruct_base", "include/opt/option.hpp:option_traits"]}
{"id": "C54", "title": "Each type gets a mechanism that the documentation promises for it", "statement": "option_traits uses for a type only a mechanism that docs/builtin_traits.md describes for it, and uses one whenever the document describes one, in a fixed order of precedence (enums with a signed underlying type and no special enumerator excepted); the mechanism fits into the object; the number of levels of the type and of the const type follows from those of its members at every depth; a pair with a const member can be put in an option exactly when the const member is not the one with the most levels.", "quantifier": "all types described by template, size, const, enumerators and members, nested to any depth; all settings of the configuration macros", "why_tests_cant": "A chain of compile-time conditions over all types; tests instantiate about thirty.", "anchors": ["include/opt/option.hpp:detemine_option_strategy", "include/opt/option.hpp:dispatch_specializations", "include/opt/option.hpp:internal_option_traits", "docs/builtin_traits.md"]}
{"id": "C55", "title": "Objects made through C++17's construct_at", "statement": "Compiled as C++17, where construct_at assigns a temporary to the storage of a trivially move assignable T, every program over options does to values, lifetimes and ownership what it does in C++20, at every nesting depth, if T is trivially destructible or not trivially move assignable; a throwing constructor of a trivially assignable T then never disturbs the storage. For a trivially assignable T with a non-trivial destructor every object made this way is destroyed twice.", "quantifier": "all classes with either kind of assignment and destructor, all programs, all patterns of exceptions, all contents of the temporary's storage", "why_tests_cant": "A different code path per language standard and per type trait; the project's counting test class has user-provided assignments and never takes it.", "anchors": ["include/opt/option.hpp:construct_at", "include/opt/option.hpp:option_destruct_base"]}
{"id": "C56", "title": "Member functions give access with exactly the rights of the holder", "statement": "get, get_unchecked, operator*, value_or_throw, value, operator-> and ptr_or_null compile for every T and give a const expression exactly if T is const or a const option owns the value, and an rvalue exactly if the option is one and does not refer to an lvalue; the functions given to map, and_then, map_or, map_or_else, inspect, has_value_and receive that expression, those given to filter and take_if an lvalue; value_or, value_or_construct, or_else, filter, map, option_cast, make_option copy or move accordingly. Exactly which calls do not compile is stated.", "quantifier": "all value types (const, lvalue and rvalue references), constness and value category of the option, types of defaults and results", "why_tests_cant": "Four overloads per function and reference collapsing; a wrong cast compiles and silently moves from somebody else's object.", "anchors": ["include/opt/option.hpp:option", "include/opt/option.hpp:impl::option", "include/opt/option.hpp:invoke", "docs/reference.md"]}
{"id": "C57", "title": "Element access, zip, unzip and flatten give the right kind of reference", "statement": "at, get, lookup, zip, zip_with, unzip and flatten at any depth give the element type with the constness and value category that the container and the element prescribe, move an element only if the holder may be moved from, and compile exactly in the stated cases; the deviations (get and at on rvalues that merely refer, get by type on rvalues, flatten on const lvalues) have witnesses.", "quantifier": "all element types and lists of them, constness and value category of the argument, nesting depths", "why_tests_cant": "Tests check a handful of is_same_v; dangling or stolen references depend on combinations.", "anchors": ["include/opt/option.hpp:get_impl", "include/opt/option.hpp:at", "include/opt/option.hpp:flatten", "include/opt/option.hpp:unzip", "include/opt/option.hpp:zip", "docs/reference.md"]}
{"id": "C58", "title": "Which swap a call swap(a, b) on options finds", "statement": "The library's overload of swap is never enabled for an option of a value whose rvalues cannot be swapped, so that std::swap, which moves three times, is called; for options of lvalue references it is enabled and the call is ambiguous.", "quantifier": "all value types, all facts about movability and about swap functions that classes bring along", "why_tests_cant": "Depends on overload resolution with std::swap, which the tests never exercise.", "anchors": ["include/opt/option.hpp:enable_swap", "include/opt/option.hpp:swap", "docs/reference.md"]}
{"id": "C59", "title": "The Visual Studio visualizer shows [none] exactly for empty options", "statement": "For each option type that debugger/option.natvis decides by a condition on bytes (bool, float, double, reference_wrapper, string, up to three layers deep; pointers, references; any type with a separate flag), the display is [none] exactly if has_value() is false, for 64-bit and 32-bit MSVC builds. Where the file is wrong, the exact cases are given.", "quantifier": "all value types, nesting depths and byte contents", "why_tests_cant": "The constants are copied by hand into a file that no test reads.", "anchors": ["debugger/option.natvis", "include/opt/option.hpp:internal_option_traits"]}
{"id": "C60", "title": "The documented specialisations of option_traits do what their comments say", "statement": "my_type of the guide keeps the rules of option_traits, at every nesting depth; the option around l others is empty exactly if x is -1 and y is l, and reset() writes just that. The specialisations for float and double, some_struct of the examples and the class of the as_option example keep the rules. my_type_3<T> keeps them for signed T (without the largest number if x + 1 overflows) and for unsigned T as wide as int, and for no narrower unsigned T; my_type_4 as printed never makes an empty option unless x already was -1.", "quantifier": "all byte contents, all levels, all integer types T, all nesting depths", "why_tests_cant": "Nothing compiles or runs the documentation; users copy from it.", "anchors": ["docs/custom_traits_guide.md", "docs/reference.md", "examples/option_traits.cpp"]}
{"id": "C61", "title": "All ways of making the contained value initialise it alike, as documented", "statement": "Constructors, in_place, make_option, emplace, try_emplace, value_or_construct and assignment to an empty option make the same value from the same arguments whenever they compile; in C++17 this is list-initialisation for aggregates and direct-initialisation otherwise, in C++20 direct-initialisation, and arguments that pass the constraint of a constructor never cause an error inside it.", "quantifier": "all integer types, vectors, strings, aggregates of any shape and depth with brace elision; all argument lists; C++17 and C++20", "why_tests_cant": "Aggregate initialisation differs between the standards and tests use one aggregate without narrowing.", "anchors": ["include/opt/option.hpp:is_initializable_from", "include/opt/option.hpp:construct_at", "include/opt/option.hpp:value_or_construct", "docs/feature_list.md", "docs/reference.md"]}
{"id": "C62", "title": "The wrapper classes are made like the type they wrap", "statement": "sentinel, sentinel_f, member and enforce can be constructed, converted to and assigned from exactly what T can, and then hold the value that T would have.", "quantifier": "all T of the initialisation layer, all argument lists, C++17 and C++20", "why_tests_cant": "The constructor template is constrained by one form of initialisation and uses the other; tests pass only exact types.", "anchors": ["include/opt/option.hpp:type_wrapper", "include/opt/option.hpp:sentinel", "include/opt/option.hpp:enforce", "docs/reference.md"]}
{"id": "C63", "title": "Typestate annotations agree with has_value()", "statement": "Every set_typestate, return_typestate, test_typestate and callable_when annotation tells the truth: after the annotated function returns, the option has a value exactly if the annotation says consumed, and the functions callable only when consumed are those that check. An analysis that goes by the annotations and knows nothing after other functions never accepts a path on which such a check fails. By Clang's own defaults for functions without annotation the same holds for paths without reset, swap and take_if of an option with a known value and moves from options not known to have one; for each of these there is an accepted path that fails.", "quantifier": "all classes T, all paths of programs over any number of variables, with tests, branches and exceptions", "why_tests_cant": "The annotations are off by default and no test switches them on; in them consumed means engaged, the reverse of the usual reading.", "anchors": ["include/opt/option.hpp:option", "include/opt/option.hpp:OPTION_CONSUMABLE", "docs/macros.md"]}
{"id": "C64", "title": "Options in constant expressions: which programs are evaluated, and to what", "statement": "Whatever a compiler evaluates at compile time has the results of mathematical optionals. With a flag stored (no unused states) C++20 evaluates every program that makes sense; C++17 evaluates, for trivially destructible T, exactly the programs that create values only in storage that has held one, and nothing for other T. Without a flag, programs are evaluated exactly if the traits can be, no empty option is made except by a trivial copy (or by traits that create the object), and no value means empty; the built-in traits that can be evaluated are those that compare and assign the carrier itself. Turning the verification off takes no constant expression away.", "quantifier": "all types by their triviality and traits; all programs over any number of variables; C++17 and C++20; each form of OPTION_VERIFY", "why_tests_cant": "Constant evaluation tracks the active union member, which run-time tests cannot see; test/constexpr.test.cpp tries option<int> alone.", "anchors": ["include/opt/option.hpp:option_destruct_base", "include/opt/option.hpp:construct_at", "docs/feature_list.md", "test/constexpr.test.cpp"]}
{"id": "C65", "title": "The expected machine code implements the operations of the option", "statement": "For every compiler and version that the build tells apart, the listing that test/codegen/run.py selects for a function of sample.cpp using opt::option is code which, from any machine state that respects the calling convention, terminates and does to the option's bytes and the return register what the operation does in the model (options of int, bool, float, double, an enum, arrays, and a nested option), leaves all other memory alone, and keeps the stack pointer. Hence every disassembly that the script accepts is right.", "quantifier": "all compilers, all version numbers, all machine states, all disassemblies", "why_tests_cant": "Listings are pasted from compiler output; a mistake in the header that compiles the same everywhere would be pasted along.", "anchors": ["test/codegen/sample.cpp", "test/codegen/run.py:check_disassembly", "include/opt/option.hpp:option_destruct_base", "include/opt/option.hpp:internal_option_traits"]}
{"id": "C66", "title": "The code generation test compares each function with exactly one listing", "statement": "For every compiler and version, each function of sample.cpp is compared with exactly one listing, no condition raises an exception, and the count reported is the number of functions. For any expected listings the script succeeds exactly if each listing that applies is switched off or equal to the disassembly; the listings read are those the file states (one for every heading, with its line number and the instructions up to the next); conditions mean what their notation says (comparison, prefix, range without its end, alternatives, conjunctions).", "quantifier": "all version numbers, all lists of expected listings, all conditions, all disassemblies", "why_tests_cant": "Overlapping or missing version ranges would show only on a compiler nobody has run.", "anchors": ["test/codegen/run.py:check_disassembly", "test/codegen/run.py:match_condition", "test/codegen/run.py:parse_expected_disassembly", "test/codegen/sample.cpp"]}
{"id": "C67", "title": "The script that checks the examples accepts exactly programs that print what is written beside their source", "statement": "examples/check.py, given a program for every file, ends with success exactly if every program ends normally and the lines it prints, without surrounding white space, fit the texts after the first //$ of the source lines one by one: equal, any decimal number for [number], a zero or (nil) for [nullptr]. Files without a program are ignored.", "quantifier": "all source texts, all outputs, all exit codes, any number of files", "why_tests_cant": "A checker that accepts too much makes the examples worthless; nothing tests it.", "anchors": ["examples/check.py", "examples/CMakeLists.txt"]}
{"id": "C68", "title": "The parser of the disassembly returns what the text states", "statement": "parse_disassembly of test/codegen/run.py maps every name to the instructions stated on the lines under the last heading with that name. The instruction of a line is its words joined by single spaces, without the comment, with decimal numbers rewritten to the same number in hexadecimal; lines that contain endbr64, endbr32 or nop anywhere, headings of sections and blank lines state none. The name is that of the function if no parenthesis follows in the first parameter's first word; every number is rewritten if no two are separated by a single character. Hence a text the whole script accepts states, for every function of sample.cpp that uses opt::option, code that does what the operation does. Outside these limits the parser is wrong: parameters of function type, numbers after a comma without a space, and calls of functions with nop in their name, which any accepted text may contain.", "quantifier": "all texts, all names, all lines", "why_tests_cant": "A filter that drops too much makes the code generation test pass for wrong code; nothing tests the script.", "anchors": ["test/codegen/run.py:parse_disassembly", "test/codegen/run.py:check_disassembly", "test/codegen/sample.cpp"]}
{"id": "C69", "title": "A program does the same with opt::option as with std::optional", "statement": "Take any program over variables of type std::optional<T> that constructs, copies, moves, assigns, resets, emplaces, swaps, updates and destroys them, and replace the type by opt::option<T>. If T's members do what their triviality says and its constructors ignore what the storage held, the same calls throw, the same members of T are called in the same order, the variables hold the same values and has_value() answers the same; where the program with std::optional is undefined nothing is said. For options nested to any depth the same holds of programs without swap: two nested options are exchanged by moves of T instead of T's swap. For a T with unused values it is required that the unused values are not used as values.", "quantifier": "all lawful classes T, all programs of any length, all schedules of exceptions, all nesting depths", "why_tests_cant": "The README says that std::optional can be replaced by opt::option.", "anchors": ["README.md", "include/opt/option.hpp:option", "include/opt/option.hpp:option::swap", "include/opt/option.hpp:option_destruct_base"]}
{"id": "C70", "title": "Constructors and assignments take part as those of std::optional do, and a = {} empties", "statement": "For an object type T the converting constructors and assignments of opt::option<T> take part in overload resolution, and are explicit, exactly when those of std::optional<T> do, except for aggregates that only braces can initialise (an extension). Whatever std::optional accepts is accepted. a = {} empties the option, as for std::optional: true if T is a class; false if T is a scalar, since the assignment of a value lacks the exclusion of std::optional and is chosen with T(); for a reference to a const scalar a dangling reference is stored.", "quantifier": "all types and all answers of the compiler about them; all states of the option", "why_tests_cant": "The README says that std::optional can be replaced by opt::option.", "anchors": ["README.md", "include/opt/option.hpp:from_value_assign", "include/opt/option.hpp:option::operator=", "include/opt/option_fwd.hpp:none_t"]}
{"id": "C71", "title": "Comparisons between options of different depth choose one operator and follow one order", "statement": "For operands that are options nested to any depths, values or opt::none (at least one an option), each of the six comparisons selects the template made for its operands, is never ambiguous and compiles exactly if the innermost types compare or one operand is none; in C++17, and in C++20 with its exchanged and negated candidates. The result is given by one order across all depths: the operand that is empty further out is smaller, a full one is larger than one that is not, two full ones compare like their contents. This order is consistent, mirrored and transitive if T's is. Hence an option converted to a deeper one equals its source only if it is full.", "quantifier": "all depths, all states, all sets of comparable innermost types, both language versions", "why_tests_cant": "30 templates with mutually recursive return types; tests compare options of equal depth.", "anchors": ["include/opt/option.hpp:operator==", "include/opt/option.hpp:operator<", "include/opt/option.hpp:fake_copy"]}
{"id": "C72", "title": "The configuration macros are set as documented, on every compiler and with every setting", "statement": "For every compiler, standard library, language version, set of installed files and choice of the documented macros, the preprocessor accepts the header exactly if the libraries the user asks for are found. Then every macro the rest of the header uses is defined; macros of the user are not changed, the others get the documented default; compiler and library are told apart; C++20 is recognised by the larger of __cplusplus and _MSVC_LANG; typestate annotations are all on or all off; the declarations of namespace std can be switched off.", "quantifier": "all sets of predefined macros with at most one compiler family and library, all answers of __has_include, __has_attribute and the like, all settings of the documented macros", "why_tests_cant": "300 lines of conditionals of which any one compiler sees a single path.", "anchors": ["include/opt/option.hpp", "docs/macros.md"]}
{"id": "C73", "title": "The reflection library in use is the one the documentation leads one to expect", "statement": "With genuine library files the header uses boost.pfr if found, else pfr, none if OPTION_USE_PFR is 0, and the file given by OPTION_PFR_FILE; the namespace is defined exactly if a library is used. False of the code when OPTION_PFR_FILE is defined alone: the namespace is never defined and a standalone pfr is not used; a missing file is ignored though documented as an error; and the documented default value of OPTION_USE_PFR written out is an error.", "quantifier": "all settings as above, all genuine libraries", "why_tests_cant": "Aggregates get no unused values, or the header does not compile, depending on these macros.", "anchors": ["include/opt/option.hpp", "docs/macros.md", "include/opt/option.hpp:OPTION_PFR_NAMESPACE"]}
{"id": "C74", "title": "A failed check does what the build asks for", "statement": "get() and operator* of an empty option end the program in a debug build; in a release build they are undefined on Clang, GCC and MSVC and unchecked on other compilers. value() and value_or_throw() of an empty option throw in every build with exceptions; without exceptions they never return a value: they end the program in a debug build and are undefined in a release build. A program that never reads an empty option does the same in every build.", "quantifier": "all settings of the macros, all values, all programs of any length and all schedules of exceptions", "why_tests_cant": "Debug checks must not change correct programs and must catch wrong ones.", "anchors": ["include/opt/option.hpp:OPTION_VERIFY", "include/opt/option.hpp:throw_bad_access", "include/opt/option.hpp:option::get", "include/opt/option.hpp:option::value_or_throw", "docs/macros.md"]}
{"id": "C75", "title": "The hash of an option of any depth is that of the innermost value and agrees with ==", "statement": "std::hash<option<T>> can be used exactly if T's hash can (all layers and const taken away), or the innermost option holds a reference; with hashes like those of the library this is the documented condition. The hash is that of the value inside all layers and 0 if a layer is empty, so operands of any depths that compare equal hash equally. With references the hash is that of the address, while == compares the objects: equal options of references may hash differently. noexcept is that of the innermost hash.", "quantifier": "all types built from const, references and options, all answers about the hashes of other types, all values, both language versions", "why_tests_cant": "Tests check one depth and no hash values.", "anchors": ["include/opt/option.hpp:enable_hash_helper2", "include/opt/option.hpp:std::hash<opt::option<T>>", "include/opt/option.hpp:std::hash<opt::option<T&>>", "docs/reference.md"]}
{"id": "C76", "title": "The library's own invoke evaluates what std::invoke does", "statement": "For every callable (function object, pointer to member function, pointer to data member), any number of arguments and any inheritance between their classes, impl::invoke chooses exactly one of its seven overloads and evaluates the expression that the standard defines as INVOKE; the only exception are pointers to members of std::reference_wrapper itself (or of its bases) applied to a reference_wrapper, which are looked for in the object referred to.", "quantifier": "all callables, all argument lists, all answers about inheritance", "why_tests_cant": "Partial ordering of overloads with and without reference_wrapper; tests use a few member pointers.", "anchors": ["include/opt/option.hpp:invoke"]}
{"id": "C77", "title": "Every program over the iterators of an option gets what a contiguous range promises", "statement": "A program that starts from begin() and end(), moves, subtracts, compares, dereferences and indexes iterators and asks for the address behind them, each step depending on all answers so far, gets from an option the answers that the standard promises for a contiguous range of has_value() objects, and is undefined only where the standard says so. True of engaged options. False of empty ones: there only ==, !=, <=, >= and the distance work, every other program allowed by the standard (std::span, first + 0, first < last) fails a check. end() is begin() + has_value(), as documented, only for engaged options.", "quantifier": "all programs of any length with any dependence on answers, all types and options in valid states", "why_tests_cant": "The iterators declare iterator_concept contiguous_iterator_tag; tests only walk an engaged option.", "anchors": ["include/opt/option.hpp:option_iterator", "include/opt/option.hpp:option::begin", "include/opt/option.hpp:option::end", "docs/reference.md"]}
{"id": "C78", "title": "option{e} deduces an option of the value, and a copy of an option", "statement": "For every expression e exactly one deduction guide is better than all others. option{e} is a copy of e if e is an option and else an option of e without const and reference, copied or moved as the category of e says; it compiles unless e is opt::none or std::in_place. Deduction any number of times gives one layer, make_option one layer per call. Inside zip it gives the declared return type. The code equivalents documented for map, unzip and zip, which use deduction, have the type of the function exactly if the function returns neither a reference nor an option, the members are neither const, references nor options, and no value is const, a reference or a single tuple.", "quantifier": "all types built from const, references, options, tuples; all value categories; any number of layers and of zipped options", "why_tests_cant": "Tests cover a few expressions; the documented equivalents were never compiled.", "anchors": ["include/opt/option.hpp:option", "include/opt/option.hpp:make_option", "include/opt/option.hpp:zip", "docs/reference.md"]}
{"id": "C79", "title": "Every function does what its documented code equivalent does", "statement": "For the constructors, assignments, emplace, try_emplace, swap, take, take_if, has_value_and, inspect, filter, or_else, and_then, map, map_or, map_or_else, option_cast, the operators |, |=, &, ^ and the converting constructors and assignments, the code equivalent printed in docs/reference.md, run on a machine where an option either holds an object or does not, gives what the header gives: same result, same contents of all options afterwards, same calls of functions of T in the same order, same exceptions; also when functions of T throw, for trivial and non-trivial T, with or without a flag, for options of options, and for programs of any length made of these calls.", "quantifier": "all classes T, all contents, all callbacks, all exceptions, all depths of nesting (constructors that do not throw), all programs; constructors that throw must not have changed the unused value in which they were called", "why_tests_cant": "The documentation describes 27 functions by code, the header implements them with tag dispatch, trivial shortcuts and unused values.", "anchors": ["docs/reference.md", "include/opt/option.hpp:option", "include/opt/option.hpp:option_assign_from_option", "include/opt/option.hpp:option_construct_from_option", "include/opt/option.hpp:option::swap", "include/opt/option.hpp:option::take"]}
{"id": "C80", "title": "Arguments may refer to the contained object, except that of emplace", "statement": "A program whose calls are given references to objects anywhere in memory, also inside options (a = *a, option y(x->first), a.try_emplace(*a)), does what it would do with copies of these objects made before each call. The one exception is emplace given the contained object: the value survives if the option has a separate flag and T no destructor, a check fails if the empty state is inside T, and the behaviour is undefined if T has a destructor. No other object of type T shares bytes with an option<T>.", "quantifier": "all memory layouts, all types without overlapping members, all programs of any length", "why_tests_cant": "emplace resets before it constructs; no test passes a reference into the option itself.", "anchors": ["include/opt/option.hpp:option::emplace", "include/opt/option.hpp:option::try_emplace", "include/opt/option.hpp:option::operator=", "include/opt/option.hpp:option"]}
{"id": "C81", "title": "Callbacks may use the option they are called by", "statement": "The callbacks of inspect, has_value_and, map, and_then, map_or, map_or_else and or_else may reset, assign or move from the option, or call its members again, to any depth: these functions do not look at the option after the callback, so the outcome is that of the callback. take_if takes whatever the predicate left, also nothing. filter looks at the option again: it returns what the predicate left, except that a predicate that empties the option and answers yes makes it fail a check. No object is lost or destroyed twice. Callbacks that see the contained object only are the special case of C28.", "quantifier": "all classes T, all callbacks that leave the option in a valid state, all exceptions", "why_tests_cant": "Callbacks receive a reference into the option; the code re-reads the option only in filter and take_if.", "anchors": ["include/opt/option.hpp:impl::option::filter", "include/opt/option.hpp:option::take_if", "include/opt/option.hpp:impl::option::inspect", "include/opt/option.hpp:impl::option::map", "include/opt/option.hpp:impl::option::and_then"]}
{"id": "C82", "title": "Layouts computed from declarations meet every condition on layouts", "statement": "For types declared from pairs, tuples (elements in order or in reverse order), arrays, complex numbers, structs with opt::member, enforce and options over any well-formed types, nested to any depth, the layout computed by the usual rules (each member at the next multiple of its alignment, the whole rounded up) is well formed: members do not overlap, lie inside the object and are aligned, alignments are powers of two that divide sizes. Declared variables do not overlap, every object inside them is aligned, also inside options. So well-typed programs over declared variables do what C53 and C80 promise, without any assumption about offsets.", "quantifier": "all declarations, all programs over them", "why_tests_cant": "The byte layer takes layouts as parameters; this shows that its conditions hold for the layouts that compilers compute.", "anchors": ["include/opt/option.hpp:option_traits", "include/opt/option.hpp:option_destruct_base", "test/special.test.cpp"]}
{"id": "C83", "title": "The settings of the CMake files decide the targets", "statement": "For every machine, compiler and choice of settings a configuration run of CMakeLists.txt and the files it reads ends, and the targets it defines, their kinds, sources, libraries and options are a stated function of these. The target option passes on the include directory, C++17, natvis unless OPTION_USE_NATVIS is false, natstepfilter if OPTION_USE_NATSTEPFILTER is true, and nothing else. Tests and examples exist by default only if the project is not a part of another. With OPTION_INSTALL there is the library only. USE_SANITIZER has no effect.", "quantifier": "all settings, compilers, generators and systems; all states in which the run may start; packages that define the targets the files name", "why_tests_cant": "The documentation of the variables names a target that does not exist, a wrong default and a setting without effect.", "anchors": ["CMakeLists.txt", "test/CMakeLists.txt", "examples/CMakeLists.txt", "benchmark/CMakeLists.txt", "test/codegen/CMakeLists.txt", "cmake/clang_tidy.cmake", "docs/cmake_variables.md"]}
{"id": "C84", "title": "Projects that use the library get the include directory, C++17 and the debugger files", "statement": "The projects of test/cmake that add, fetch or find the library link with a target option that gives them the include directory of the sources or of the installation, C++17, and the debugger files as set. In the source tree natstepfilter is off by default, in the installed package it is on. An installed package defines no other target; a project that adds or fetches the library builds option-codegen-test by default as well. The headers are installed in an include directory of the package.", "quantifier": "all settings of the user and of the installation, all machines", "why_tests_cant": "README.md promises these uses; each goes through different files.", "anchors": ["test/cmake/add_subdirectory/CMakeLists.txt", "test/cmake/FetchContent/CMakeLists.txt", "test/cmake/find_package/CMakeLists.txt", "cmake/option-config.cmake.in", "CMakeLists.txt"]}
{"id": "C85", "title": "The words that the build gives to run.py name the compiler", "statement": "run-option-codegen-test exists exactly if it is not switched off and Python and llvm-objdump are found. It gives run.py a list of words which the script reads, after lower() and split, as those of one of the nine compilers that sample.cpp tells apart, and the version of the compiler. Each of the nine occurs. Together with C65 every compiler is checked against its own listings.", "quantifier": "all compilers, libraries, versions and settings", "why_tests_cant": "The list passes through CMake's lists, a command line and Python.", "anchors": ["test/codegen/CMakeLists.txt", "test/codegen/run.py", "test/codegen/sample.cpp"]}
{"id": "C86", "title": "Warnings of the test are errors, and only of the test", "statement": "With MSVC, and with every compiler whose name contains Clang or GNU, option-test is compiled with all warnings as errors, except those listed for the compiler and version; the options are private to the test. The only other target with options is option-codegen-test, without warnings.", "quantifier": "all compilers, versions and settings", "why_tests_cant": "cmake/compiler_warnings.cmake builds the list from five conditions.", "anchors": ["cmake/compiler_warnings.cmake", "test/CMakeLists.txt", "test/codegen/CMakeLists.txt"]}
{"id": "C87", "title": "The other documented code equivalents hold too", "statement": "Seventeen more code equivalents of docs/reference.md are transcribed and are, line by line, the text of the document: value_or, value_or_construct, from_nullable, swap, get of tuples and variants by index and by type, at, at_front, at_back, lookup, flatten, hash, zip and zip_with. Each function does what its code equivalent does: the same result, the same objects afterwards, the same calls of functions of T in the same order, the same exceptions and the same ends. zip and zip_with for any number of options of any types, lvalues or rvalues, and any function; the result of zip is a tuple whose elements are made in either order and undone when one throws. hash if the number that the document leaves open is 0.", "quantifier": "all classes T that obey the contract, all states, all worlds, all containers, all numbers of operands", "why_tests_cant": "C79 covers the members; zip builds a temporary tuple, moves it into the option and destroys it.", "anchors": ["include/opt/option.hpp:zip", "include/opt/option.hpp:zip_with", "include/opt/option.hpp:impl::option::value_or", "include/opt/option.hpp:get", "include/opt/option.hpp:at", "include/opt/option.hpp:lookup", "include/opt/option.hpp:flatten", "docs/reference.md"]}
{"id": "C88", "title": "A string of the standard library is never taken for an unused state", "statement": "With the STL of Microsoft, libc++ in both layouts and libstdc++, every object of std::basic_string that the library makes, short or long, whatever its contents, is a held value for option: get_level answers -1. The words that set_level writes are those of no string, have the size of the level, and are the documented ones, except that with libstdc++ the capacity stays what it was. The elements may have any size; only with the STL and elements of more than 8 bytes a string may have capacity 0, and then, exactly, it looks like level 0.", "quantifier": "all string objects of the three libraries, pointers of 4 and 8 bytes, all element sizes up to 8 bytes (exactly characterised beyond)", "why_tests_cant": "The trait reads the private members of the library at fixed offsets; the mark must be impossible for every real string.", "anchors": ["include/opt/option.hpp:internal_option_traits", "docs/builtin_traits.md"]}
{"id": "C89", "title": "Nested options: how many layers are engaged says all about a program on them", "statement": "A program dereferences an option of n nested options and resets, refills or asks the layer it reaches, any number of times. A statement with k dereferences compiles exactly for k < n. It passes its checks exactly if the k outermost layers are engaged; otherwise the check of the first empty layer fails. After a reset exactly k layers are engaged, after emplace all. The bytes never show anything else. Emptying from the inside to the outside works for a full object. The overview of README.md does this to an empty object and with one dereference too many: it does not compile, and without this line it fails its first check. The static_asserts of the overview hold.", "quantifier": "all numbers of layers, all types T of the universe, all programs, all states", "why_tests_cant": "The overview is the first code a user reads; nested options share one field for all their states.", "anchors": ["include/opt/option.hpp:impl::option::reset", "include/opt/option.hpp:impl::option::emplace", "README.md"]}
{"id": "C90", "title": "Iterators and const iterators of an option denote the same positions and mix in one order only", "statement": "Every program that compiles and uses iterators and const iterators of one option together, converting, assigning, moving, comparing, subtracting, reading and writing, gets what a range with one value gives, and on an empty option what an empty range gives as long as it does not move or read. A comparison or difference compiles exactly if the right operand is or converts to the type of the left one; C++20 before P2468 also takes the other order for == and !=. So the rule for containers, that either operand may be a const iterator, holds exactly for options of const objects and of references. Const iterators of options of objects never change anything; those of options of references may.", "quantifier": "all programs, all option classes and states, C++17, C++20 and C++20 with P2468", "why_tests_cant": "All operators are members, so only the right operand is converted.", "anchors": ["include/opt/option.hpp:option_iterator", "test/option.test.cpp"]}
{"id": "C91", "title": "The workflow builds what it configures, and tests what it names", "statement": "Read as YAML with its expressions, matrices and shells, .github/workflows/ci.yml has 41 runs. In each run, a step that builds in a directory follows one that configures it, and the target it names is defined by that configuration. Where the machine code is checked, test/codegen/run.py is told the compiler the run is named after; every compiler that the samples tell apart has a run. The test is run in Debug and Release, on Linux and Windows for 32 and 64 bits, and is compiled and linked with the sanitizers that a table gives by job, name and directory. The project that finds the library as a package is configured after the library was installed, as root on Linux and without sudo on Windows. Projects that add or fetch the library are compiled after it is there.", "quantifier": "all runs, steps, machines and settings of the workflow", "why_tests_cant": "A misspelt target, matrix key or flag silently tests less. False in one place: nothing makes the target of test/cmake/ExternalProject wait for the download of the library.", "anchors": [".github/workflows/ci.yml", "CMakeLists.txt", "test/CMakeLists.txt", "test/codegen/CMakeLists.txt", "test/cmake/ExternalProject/CMakeLists.txt"]}
{"id": "C92", "title": "The compilers of the README are tested, with sanitizers", "statement": "Every major version that README.md lists, with every standard library it lists, has a run of the workflow that tests the library for 64 bits in Debug and Release: GCC and Clang with the address and the undefined behaviour sanitizer, MSVC with the first, ClangCL with the second. The compiler of Intel is listed as tested with sanitizers and has none.", "quantifier": "all lines, versions and libraries listed", "why_tests_cant": "The list says what the library is known to work with.", "anchors": ["README.md", ".github/workflows/ci.yml"]}
{"id": "C93", "title": "The typestate analysis of whole functions", "statement": "Run the annotations over a function with branches, loops, returns and handlers by the rules of Clang's analysis (tests make branches unreachable, what branches disagree about is unknown, a loop must leave every variable as it was). If functions without annotation and handlers leave nothing known, then in no run of a function without warnings does an access fail its check. Clang's own rules come to the same for functions that call only annotated functions, copy or destroy options and have no handlers. if (x) *x; and if (!x) return; *x; give no warning, and an access of an option not known to have a value gives one.", "quantifier": "all programs, all runs of them with any exceptions and any number of rounds of loops, all option classes and states", "why_tests_cant": "The annotations are meant to find accesses of empty options. By Clang's rules an option made from an option<U> and a parameter by value count as empty, so that what a test of them guards is not looked at; handlers are not looked at; and every loop while (x) about an unknown x that ends knowing x gives a warning.", "anchors": ["include/opt/option.hpp:275-293", "include/opt/option.hpp:2794", "include/opt/option.hpp:3017-3124"]}
{"id": "C94", "title": "Functions declared noexcept and exceptions", "statement": "If the is_nothrow traits tell the truth about T, no exception reaches the end of a copy or move member of option<T> that is declared noexcept, of swap of two option<T> that is declared noexcept, or of reset(), the destructor and construction and assignment from none; the traits of option<T> tell the truth again, at every depth. Conversely a copy or move member that is not noexcept throws on some options if the operations of T that its specification names do. at, at_front and at_back, noexcept without a condition, end the program exactly if something that they call throws: size(), the access, or storing the element. The level hooks of opt::sentinel end it exactly if a comparison before the first match, or the assignment of the chosen sentinel, does not return.", "quantifier": "all classes, all their traits, all options of them in every state, all containers and sentinel lists", "why_tests_cant": "An exception in a noexcept function is std::terminate. The specification of swap for an option<T> and an option<U> asks about moving T and moving U, where the code constructs U from T and T from U: there are classes for which a noexcept swap ends the program.", "anchors": ["include/opt/option.hpp:option_base", "include/opt/option.hpp:impl::option::nothrow_swap", "include/opt/option.hpp:option::swap", "include/opt/option.hpp:at", "include/opt/option.hpp:at_front", "include/opt/option.hpp:at_back", "include/opt/option.hpp:impl::sentinel_get_level_impl", "include/opt/option.hpp:impl::sentinel_set_level_impl"]}
{"id": "C95", "title": "Swap of options of different types", "statement": "a.swap(b) of an option<T> and an option<U> gives a what b had and b what a had, converted by the constructors that take the other type or by swap(T&, U&), and empty for empty. If a conversion or the swap of the objects throws, both options keep having or not having a value. It ends the program only if an operation of T or U does. With U = T it is the swap of two option<T>.", "quantifier": "all pairs of classes that convert to each other, all states of the options, flag and traits storage on either side", "why_tests_cant": "The four cases of the code construct in one storage and reset the other.", "anchors": ["include/opt/option.hpp:option::swap"]}
{"id": "C96", "title": "OPTION_LIFETIMEBOUND marks where results point", "statement": "Every reference, pointer or iterator in the result of an option function lies in an argument that carries OPTION_LIFETIMEBOUND, or was reachable through a reference that an argument held. So in expressions of any depth over these functions nothing dangles if no marked argument is a temporary, and the compiler's warning suffices where the arguments that are not marked are variables. The exceptions have witnesses: functions that give a reference into an argument that is not marked, the warning on temporary options of references, and copies of options of references.", "quantifier": "all objects, places and states of the operands, all expressions of any depth over the annotated and copying functions, all functions given to map and zip_with", "why_tests_cant": "A wrong or missing attribute shows neither at run time nor in a test that compiles.", "anchors": ["include/opt/option.hpp:OPTION_LIFETIMEBOUND", "include/opt/option.hpp:option::get", "include/opt/option.hpp:option::emplace", "include/opt/option.hpp:io", "include/opt/option.hpp:at", "include/opt/option.hpp:lookup", "include/opt/option.hpp:flatten"]}
{"id": "C97", "title": "OPTION_PURE licenses no wrong optimisation", "statement": "The functions that carry OPTION_PURE write nothing, provided the level function of the trait and the members of the container that they call write nothing. So every program that finishes still finishes with the same memory and output after a compiler has dropped calls whose result is not used and has taken results again that nothing can have changed. Without dropping, failed checks still fail. Witnesses show what is lost otherwise: the check of a get() whose result is not used, the insertion of at() on a std::map, a level function that counts its calls.", "quantifier": "all memories and hooks, all programs of any length with branches and loops, all optimisations of these two kinds in any combination, checks on or off", "why_tests_cant": "Whether a compiler makes use of the attribute depends on its version and flags.", "anchors": ["include/opt/option.hpp:OPTION_PURE", "include/opt/option.hpp:option::has_value", "include/opt/option.hpp:option::get", "include/opt/option.hpp:option::ptr_or_null", "include/opt/option.hpp:at", "include/opt/option.hpp:operator=="]}
{"id": "C98", "title": "Threads and the bytes of options", "statement": "A call on an option changes no byte outside the objects it writes and depends on no byte beyond those it reads or writes; has_value() reads only the bytes that hold the state. So threads whose calls are not in conflict (no byte that one writes is touched by another) each see what they see alone, fail only where one fails alone, and end in the same memory under every schedule. Calls on options of different variables are not in conflict, nor are calls that only look. With a flag of its own an option can be asked has_value() while another thread changes a member of the contained object. A witness shows that an option that keeps its state inside the contained object can not.", "quantifier": "all types of options of any depth, all layouts of variables in memory, all contents of the memory (valid or not), any number of threads, programs of any length, all schedules", "why_tests_cant": "With std::optional the flag is a memory location of its own, so has_value() never races with changes of the contained object.", "anchors": ["include/opt/option.hpp:option_destruct_base", "include/opt/option.hpp:option::has_value", "include/opt/option.hpp:option::reset", "include/opt/option.hpp:option::swap"]}
{"id": "C99", "title": "What an option of references is bound to", "statement": "An option<T&> or option<T&&> made from a value, or assigned one, refers to the argument itself, to its base of type T, or to what a std::reference_wrapper<T> refers to: never to a temporary made by the call, and, for T&, to what a reference T& with the same initialiser would refer to. Every argument that the constraints accept compiles. std::in_place, emplace and try_emplace have no constraint: they bind exactly as the parameter of ref_to_ptr does. Made from another option, an option of references refers to what that option contains or refers to, and assignment of an rvalue option does the same; an option<T&> refers to nothing inside the other option. Witnesses show that std::in_place and emplace leave a pointer to a temporary that is gone after the call, that assignment of an lvalue option does not compile or leaves such a pointer too, that constraints accept options for which the constructor of option<T&&> does not compile, that option<T&&> accepts a std::reference_wrapper from which T&& cannot be initialised, and which initialisers of T& the constructor does not take.", "quantifier": "all programs (inheritance, conversion functions and converting constructors), all referents with and without const, & and &&, all arguments with their value category and const", "why_tests_cant": "A dangling reference is not visible at the place where it is made, and the constraints are pointer conversions, not reference bindings.", "anchors": ["include/opt/option.hpp:option_base::ref_to_ptr", "include/opt/option.hpp:option_checks_base", "include/opt/option.hpp:is_same_reference_wrapper_v", "include/opt/option.hpp:option::emplace", "include/opt/option.hpp:option::operator=", "include/opt/option.hpp:option_checks_base::from_option_like_ctor", "include/opt/option.hpp:option_checks_base::from_option_like_assign"]}
{"id": "C100", "title": "The sources of the benchmark", "statement": "benchmark/generate.py writes a file exactly for the two class names and a number. The file declares that many types and one variable of each option<type>, every type before its use and no name twice, after including the header of the class. The files for the two classes differ in the header and the class only. Every custom command of the configured project that has an output calls the script with words for which it writes that very output, with 2000 types, and these outputs are the sources of the two targets of the benchmark.", "quantifier": "all words given to the script, all numbers, all machines, settings and compilers for which the project is configured", "why_tests_cant": "The sources exist only while the benchmark is built, so a wrong line shows up as a failed or an unfair benchmark.", "anchors": ["benchmark/generate.py", "benchmark/CMakeLists.txt"]}
{"id": "C101", "title": "Declarations of templates of the standard library", "statement": "With OPTION_FORWARD_DECLARE_STD the header declares class templates of the standard library in exactly the namespaces in which libc++ (with any ABI namespace), the library of MSVC, and libstdc++ (with any version namespace) define them, so every name in std keeps one meaning. This holds for libstdc++ exactly with the C++11 ABI and without debug mode: with the old ABI the header is not well-formed, in debug mode std::vector is ambiguous. Without the macro it holds for all. The words are those that the preprocessor leaves in the macros of the header.", "quantifier": "all configurations of the three libraries, all names of inline namespaces, C++17 and C++20", "why_tests_cant": "A test needs every configuration of every library; a second template with the same name shows only where it is used.", "anchors": ["include/opt/option.hpp:OPTION_FORWARD_DECLARE_STD", "include/opt/option.hpp:OPTION_STD_NAMESPACE_BEGIN", "include/opt/option.hpp:OPTION_STD_NAMESPACE_CXX11_BEGIN", "docs/macros.md"]}
{"id": "C102", "title": "Stepping over the functions of the library", "statement": "With debugger/option.natstepfilter the debugger does not step into exactly the functions whose qualified name begins with the namespace opt, whatever their template arguments, and steps into functions of other namespaces even if opt occurs in their name. So it steps into the three std::hash specialisations of the header, and never into the functions of a user's own option_traits.", "quantifier": "all names of functions, all regular expressions built of characters, dots and quantifiers", "why_tests_cant": "Tests do not run the debugger of Visual Studio.", "anchors": ["debugger/option.natstepfilter", "docs/cmake_variables.md:OPTION_USE_NATSTEPFILTER", "include/opt/option.hpp:hash"]}
{"id": "C103", "title": "Names of the standard library are declared before they are used", "statement": "Whatever is configured, every use of a name of namespace std in option.hpp comes after its declaration, by the header itself or by an included header that the C++ standard requires to declare it. Exceptions, exactly: std::reference_wrapper and std::ptrdiff_t, and, without OPTION_FORWARD_DECLARE_STD, the tags of iterators. All included headers are headers of the standard, except <ciso646> in C++20. Without __type_pack_element the header needs the definition of std::tuple, which nothing that it includes has to provide.", "quantifier": "all uses of std:: in the header, all libraries, C++17 and C++20, all settings of the macros that choose includes", "why_tests_cant": "Standard libraries include more than they have to, so a missing include fails only with another library or version.", "anchors": ["include/opt/option.hpp:includes", "include/opt/option.hpp:OPTION_FORWARD_DECLARE_STD", "include/opt/option.hpp:find_max_level", "include/opt/option.hpp:option_iterator"]}
{"id": "C104", "title": "Which specialisation of option_traits is used", "statement": "The traits of option<T> are chosen at its first use and stay, and the order of what comes before does not matter: the user's full specialisation if there is one; otherwise the only one that matches among those for sentinel_option_traits, for the four wrappers (sentinel, sentinel_f, member, enforce) and the user's partial specialisations; the built-in traits if none matches; and the program does not compile if two match. A program compiles exactly if this holds at every first use, nothing is specialised twice and option_traits is not fully specialised after a use. Witnesses show that sentinel_option_traits specialised for a wrapper never works on its own, and that it is ignored without a word if it comes after the first use. The traits of enforce and member also choose those of the wrapped type and of the member, with the same consequences.", "quantifier": "all translation units as sequences of specialisations and uses, all types, all conditions of partial specialisations", "why_tests_cant": "The documentation says only that the specialisation is enabled when sentinel_option_traits is complete; what else matches, and when this is asked, decides which values mean empty.", "anchors": ["include/opt/option.hpp:option_traits", "include/opt/option.hpp:sentinel_option_traits", "include/opt/option_fwd.hpp", "docs/reference.md:opt::sentinel_option_traits"]}
