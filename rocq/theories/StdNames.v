(** The names of the standard library that the header uses, and the headers that it includes.

    Models: include/opt/option.hpp 7-14, 202-214, 299-509 and every line of the rest in which std:: occurs outside of
    comments and string literals.  What libraries other than the standard one are included (boost.pfr, libassert) is left out. *)
From Coq Require Import NArith Bool List String.
From Verif Require Import StdFwd.
Import ListNotations.
Open Scope string_scope.
Open Scope list_scope.

(** What the conditions depend on. *)
Record setting := mksetting {
  library_of : library;
  forward : bool;          (* OPTION_FORWARD_DECLARE_STD *)
  cxx20 : bool;            (* OPTION_IS_CXX20 *)
  addressof_known : bool;  (* 504: __builtin_addressof, or MSVC *)
  prints : bool;           (* 192-211: OPTION_VERIFY prints a message *)
  signals : bool;          (* 201: no other way to break into the debugger *)
  pack_element : bool      (* 819: __type_pack_element *)
}.

(** The headers that are included, with the lines. *)
Definition includes (s : setting) : list (N * string) :=
  [(7, "cstring"); (8, "ciso646"); (9, "type_traits"); (10, "utility"); (11, "limits"); (12, "exception"); (13, "cstdint");
   (14, "initializer_list")]%N
  ++ (if prints s then (if signals s then [(202, "csignal")] else []) ++ [(210, "cstdio")] else [])%N
  ++ (if forward s then []
      else [(492, "string_view"); (493, "string"); (494, "vector"); (495, "memory"); (496, "array"); (497, "variant"); (498, "complex")])%N
  ++ (if cxx20 s then [(502, "memory")] else [])%N
  ++ (if addressof_known s then [] else [(508, "memory")])%N.

(** The names that the header declares itself, and the line of the last declaration: those of StdFwd, and two functions. *)
Definition own (s : setting) : list string :=
  if forward s then ["basic_string_view"; "basic_string"] ++ others (library_of s) (cxx20 s) ++ ["get"; "get_if"] else [].
Definition own_until : N := 490.

(** Lines that are not always compiled. *)
Definition compiled (s : setting) (line : N) : bool :=
  if existsb (N.eqb line) [204; 206]%N then prints s && signals s
  else if existsb (N.eqb line) [213; 214]%N then prints s
  else if N.ltb 341 line && N.ltb line 490 then forward s
  else if N.eqb line 509 then negb (addressof_known s)
  else if existsb (N.eqb line) [650; 2408]%N then cxx20 s
  else if N.eqb line 822 then negb (pack_element s)
  else true.

(** Where the names are used. *)
Definition occurrences : list (string * list N) := [
    ("addressof", [509]);
    ("array", [1030; 1330; 1336; 1339; 1813; 1814]);
    ("basic_string", [1039; 1615; 1622; 1626; 1650; 1654; 1659; 1692]);
    ("basic_string_view", [1034; 1381; 1387; 1391]);
    ("bool_constant", [518; 523; 534; 539; 552; 736; 1822; 2307; 2311; 2845; 2849; 2855; 2861; 2867; 2872]);
    ("complex", [1054; 1733; 1739; 1743]);
    ("conjunction", [730]);
    ("conjunction_v", [3344; 3356]);
    ("construct_at", [650]);
    ("contiguous_iterator_tag", [2408]);
    ("decay_t", [3330; 3331]);
    ("declval", [673; 674; 679; 680; 685; 1349; 1500; 1825]);
    ("default_delete", [1050; 1398; 1404; 1408]);
    ("disjunction", [733]);
    ("enable_if", [2650; 2655; 2680; 2685; 2689; 2704; 2713; 2735; 2761; 2764; 2784]);
    ("enable_if_t", [619; 624; 629; 634; 639; 644; 714; 722; 2633; 3344; 3356; 3627; 3631; 3902; 4057]);
    ("exception", [2512]);
    ("false_type", [560; 711; 716; 1924; 1932; 1963; 1971; 2021; 2032; 2072; 2082]);
    ("fflush", [214]);
    ("fprintf", [213]);
    ("get", [1322; 1325; 3422; 3444; 3454]);
    ("get_if", [3485; 3491]);
    ("hash", [4056; 4071; 4074; 4083; 4084; 4085; 4089; 4090; 4091]);
    ("in_place", [2845; 2849; 2855; 2861; 2867; 3336; 3341]);
    ("in_place_t", [1920; 1924; 1959; 1963; 2016; 2021; 2067; 2072; 2307; 2699; 2707; 2715; 2753; 2818]);
    ("index_sequence", [3418]);
    ("initializer_list", [802; 2864; 2866; 3191; 3193; 3340]);
    ("integer_sequence", [912; 927]);
    ("is_aggregate_v", [655; 661; 1830; 2543; 2845; 2849; 2855; 2861; 2867; 2872]);
    ("is_assignable", [2674; 2675; 2676; 2677]);
    ("is_assignable_v", [2730; 2738]);
    ("is_base_of_v", [619; 624; 629; 634]);
    ("is_constructible", [1837; 2664; 2665; 2666; 2667]);
    ("is_constructible_v", [1830]);
    ("is_convertible", [2668; 2669; 2670; 2671]);
    ("is_convertible_v", [2656; 2681; 2756; 2770; 2778; 2787]);
    ("is_copy_assignable_v", [2799]);
    ("is_copy_constructible", [4060]);
    ("is_copy_constructible_v", [2798]);
    ("is_default_constructible", [4059]);
    ("is_destructible", [4062]);
    ("is_empty_v", [1040; 1045]);
    ("is_enum_v", [1111]);
    ("is_final_v", [1040; 1045]);
    ("is_floating_point_v", [1084]);
    ("is_function_v", [619; 624; 629; 634; 639; 644]);
    ("is_invocable_r", [4063]);
    ("is_lvalue_reference_v", [2757; 2771; 2779; 2788]);
    ("is_member_pointer_v", [1075]);
    ("is_move_assignable_v", [2801]);
    ("is_move_constructible", [2635; 2636; 4061]);
    ("is_move_constructible_v", [2800]);
    ("is_nothrow_constructible_v", [3903]);
    ("is_nothrow_copy_assignable_v", [2155; 2168; 2201; 2221; 2255; 2271]);
    ("is_nothrow_copy_constructible_v", [2152; 2155; 2168; 2198; 2201; 2221; 2252; 2255; 2271; 3912]);
    ("is_nothrow_move_assignable_v", [2186; 2208; 2228; 2241; 2260; 2276]);
    ("is_nothrow_move_constructible_v", [2183; 2186; 2205; 2208; 2225; 2228; 2241; 2260; 2276; 2642; 2643; 3914]);
    ("is_nothrow_swappable_with_v", [2644]);
    ("is_pointer_v", [1066]);
    ("is_polymorphic_v", [1105]);
    ("is_reference_v", [2140; 2314; 2802; 2812; 2917; 2935; 2958; 3062; 3071; 3080; 3089; 3127; 3135; 3143; 3151]);
    ("is_same", [2715]);
    ("is_same_v", [619; 624; 629; 634; 2583; 2594; 2682; 2700; 2814; 2818]);
    ("is_scalar_v", [2919]);
    ("is_swappable_with", [2637]);
    ("is_trivially_copy_assignable", [543]);
    ("is_trivially_copy_assignable_v", [544]);
    ("is_trivially_copy_constructible_v", [2136]);
    ("is_trivially_copyable_v", [3394]);
    ("is_trivially_destructible", [527]);
    ("is_trivially_destructible_v", [528]);
    ("is_trivially_move_assignable", [546]);
    ("is_trivially_move_assignable_v", [547]);
    ("is_trivially_move_constructible_v", [2138]);
    ("is_unsigned_v", [1123; 1501]);
    ("is_void_v", [2823; 3360]);
    ("make_index_sequence", [3437]);
    ("make_integer_sequence", [918; 923]);
    ("memcpy", [774; 781; 788; 794; 1662; 1664; 1672; 1674; 1682; 1684; 1696; 1698; 1701; 1703; 1706; 1708; 1721; 1727]);
    ("numeric_limits", [1085; 1566]);
    ("pair", [1022; 1282; 1297; 1304; 1809; 1810]);
    ("ptrdiff_t", [2413]);
    ("raise", [204; 206]);
    ("random_access_iterator_tag", [2410]);
    ("reference_wrapper", [640; 645; 1018; 1172; 1175; 1179; 1886; 2297; 2745; 2747]);
    ("remove_const_t", [679; 680; 1912; 1951; 2003; 2054; 4072; 4074]);
    ("remove_cv_t", [1900; 2005; 2056; 2564; 2682; 2700; 2842; 2846; 2913; 3169; 3170; 3174; 3177; 3178; 3180; 3182; 3187;
     3189; 3191; 3193; 3628; 3632]);
    ("remove_reference_t", [2291; 2411; 2755; 2756; 2769; 2770; 2777; 2778; 2786; 2787; 3096; 3101; 3213; 3216; 3317]);
    ("size_t", [397; 400; 402; 802; 803; 806; 818; 827; 850; 862; 872; 881; 888; 923; 926; 927; 932; 935; 939; 943; 949;
     1029; 1317; 1329; 1351; 1394; 1601; 1617; 1620; 1621; 1624; 1625; 1630; 1631; 1635; 1637; 1640; 1641; 1645; 1647; 1652;
     1653; 1661; 1662; 1663; 1664; 1671; 1672; 1673; 1674; 1683; 1684; 1695; 1696; 1697; 1698; 1700; 1701; 1702; 1703; 1707;
     1708; 1714; 1812; 3417; 3442; 3464; 3466; 3468; 3470; 3483; 3497; 3499; 3501; 3503; 3577; 4063; 4076; 4077; 4084; 4090]);
    ("swap", [3254]);
    ("true_type", [558; 709; 724; 1826; 1920; 1928; 1959; 1967; 2016; 2027; 2067; 2077]);
    ("tuple", [822; 841; 1026; 1313; 1321; 1324; 1805; 1806; 3346; 3348]);
    ("tuple_element_t", [822; 928; 3422; 3426]);
    ("tuple_size", [705; 923; 3437]);
    ("uint32_t", [1203; 1208; 1213; 1251; 1256; 1261; 1267; 1272; 1277; 1467; 1472; 1477]);
    ("uint64_t", [1187; 1192; 1197; 1219; 1224; 1229; 1235; 1240; 1245; 1484; 1489; 1494]);
    ("uint8_t", [1662; 1664; 1672; 1674; 1682; 1684; 1696; 1698; 1701; 1703; 1706; 1708; 1721; 1727]);
    ("uint_least8_t", [1158]);
    ("uintmax_t", [670; 673; 674; 679; 680; 802; 804; 807; 829; 847; 859; 887; 911; 912; 915; 916; 918; 1142; 1160; 1162;
     1165; 1173; 1175; 1179; 1189; 1191; 1195; 1205; 1207; 1211; 1221; 1223; 1227; 1237; 1239; 1243; 1253; 1255; 1259; 1269;
     1271; 1275; 1295; 1297; 1304; 1319; 1321; 1324; 1334; 1336; 1339; 1353; 1355; 1358; 1368; 1370; 1374; 1385; 1387; 1391;
     1402; 1404; 1408; 1469; 1471; 1475; 1486; 1488; 1492; 1503; 1505; 1506; 1508; 1517; 1525; 1529; 1532; 1536; 1549; 1551;
     1552; 1554; 1565; 1566; 1568; 1570; 1572; 1584; 1586; 1588; 1590; 1603; 1605; 1608; 1657; 1659; 1668; 1678; 1688; 1692;
     1717; 1719; 1724; 1737; 1739; 1743; 1766; 1777; 1779; 1780; 1782; 3282; 3284; 3288; 3297; 3299; 3302; 3310; 3312; 3314;
     3316; 3934; 3935; 3941; 3944; 3945; 3961; 3963; 3966; 3975; 3976; 3982; 3985; 3986; 4002; 4004; 4007; 4022; 4024; 4027;
     4040; 4044; 4047]);
    ("uintptr_t", [1090; 1097; 1105; 1176; 1181; 1366; 1371; 1376; 1383; 1388; 1400; 1405; 1714; 1715; 1720; 1726; 3313;
     3317]);
    ("underlying_type_t", [1123; 1527; 1545; 1562; 1580]);
    ("unique_ptr", [1050; 1398; 1404; 1408]);
    ("variant", [3498; 3500; 3502; 3504; 3507; 3509; 3511; 3513]);
    ("vector", [1044; 1713; 1719; 1724]);
    ("void_t", [3606])
  ]%N.
Definition uses (s : setting) (name : string) (line : N) : Prop :=
  exists ls, In (name, ls) occurrences /\ In line ls /\ compiled s line = true.
