(** The text of the CMake files of the repository, line by line. *)
From Coq Require Import List String.
Import ListNotations.
Open Scope string_scope.

(** CMakeLists.txt *)
Definition root_txt : list string := [
  "cmake_minimum_required(VERSION 3.24 FATAL_ERROR)";
  "";
  "project(option VERSION 1.3.4 LANGUAGES CXX)";
  "";
  "option(OPTION_TEST ""Enable 'option-test' target"" ${PROJECT_IS_TOP_LEVEL})";
  "option(OPTION_EXAMPLES ""Enable 'option-examples' target"" ${PROJECT_IS_TOP_LEVEL})";
  "option(OPTION_BENCHMARK ""Enable benchmarks targets"" FALSE)";
  "option(OPTION_CODEGEN_TEST ""Enable 'option-codegen-test' target"" TRUE)";
  "option(USE_SANITIZER ""Enable sanitizers for test target"" TRUE)";
  "option(USE_CLANG_TIDY ""Enable clang-tidy for test target"" FALSE)";
  "option(OPTION_INSTALL ""Enable --install for 'option' project"" FALSE)";
  "option(OPTION_USE_NATVIS ""Enable .natvis file for Visual Studio debugger"" TRUE)";
  "option(OPTION_USE_NATSTEPFILTER ""Enable .natstepfilter file for Visual Studio debugger"" FALSE)";
  "option(USE_LIBASSERT ""Enable libassert library integration"" TRUE)";
  "";
  "add_library(option INTERFACE";
  "    ""include/opt/option.hpp""";
  "    ""include/opt/option_fwd.hpp""";
  ")";
  "";
  "if (NOT PROJECT_IS_TOP_LEVEL)";
  "    set(include_as_system ""SYSTEM"")";
  "endif()";
  "";
  "target_include_directories(option ${include_as_system} INTERFACE";
  "    ""$<BUILD_INTERFACE:${PROJECT_SOURCE_DIR}/include>""";
  "    ""$<INSTALL_INTERFACE:include>""";
  ")";
  "";
  "target_compile_features(option INTERFACE cxx_std_17)";
  "";
  "if (OPTION_USE_NATVIS)";
  "    target_sources(option INTERFACE $<BUILD_INTERFACE:${PROJECT_SOURCE_DIR}/debugger/option.natvis>)";
  "endif()";
  "if (OPTION_USE_NATSTEPFILTER)";
  "    target_sources(option INTERFACE $<BUILD_INTERFACE:${PROJECT_SOURCE_DIR}/debugger/option.natstepfilter>)";
  "endif()";
  "";
  "if (NOT OPTION_INSTALL)";
  "    if (DEFINED OPTION_EXTRA_FLAGS)";
  "        separate_arguments(OPTION_EXTRA_FLAGS)";
  "        add_compile_options(${OPTION_EXTRA_FLAGS})";
  "        add_link_options(${OPTION_EXTRA_FLAGS})";
  "    endif()";
  "";
  "    if (OPTION_TEST)";
  "        add_subdirectory(test ${exclude_from_all})";
  "    endif()";
  "";
  "    if (OPTION_EXAMPLES)";
  "        add_subdirectory(examples ${exclude_from_all})";
  "    endif()";
  "";
  "    if (OPTION_BENCHMARK)";
  "        add_subdirectory(benchmark ${exclude_from_all})";
  "    endif()";
  "";
  "    if (OPTION_CODEGEN_TEST)";
  "        add_subdirectory(test/codegen ${exclude_from_all})";
  "    endif()";
  "else() # ^^^ NOT OPTION_INSTALL / vvv OPTION_INSTALL";
  "    include(CMakePackageConfigHelpers)";
  "    include(GNUInstallDirs)";
  "";
  "    # https://cmake.org/cmake/help/latest/command/find_package.html#search-modes";
  "    # Generate config file";
  "    configure_package_config_file(";
  "        ""${PROJECT_SOURCE_DIR}/cmake/option-config.cmake.in""";
  "        ""${PROJECT_BINARY_DIR}/option-config.cmake""";
  "        INSTALL_DESTINATION ""${CMAKE_INSTALL_LIBDIR}/cmake/option""";
  "    )";
  "    # Generate version file";
  "    write_basic_package_version_file(";
  "        ""${PROJECT_BINARY_DIR}/option-config-version.cmake""";
  "        # VERSION is implicit";
  "        COMPATIBILITY ExactVersion";
  "        ARCH_INDEPENDENT";
  "    )";
  "    # Install cmake config files";
  "    install(";
  "        FILES";
  "            ""${PROJECT_BINARY_DIR}/option-config.cmake""";
  "            ""${PROJECT_BINARY_DIR}/option-config-version.cmake""";
  "        DESTINATION";
  "            ""${CMAKE_INSTALL_LIBDIR}/cmake/option""";
  "    )";
  "";
  "    # Generate option targets";
  "    install(";
  "        TARGETS              option";
  "        EXPORT               option-targets";
  "        INCLUDES DESTINATION ""${CMAKE_INSTALL_INCLUDEDIR}""";
  "    )";
  "    # Install option targets";
  "    install(";
  "        EXPORT      option-targets";
  "        FILE        ""option-targets.cmake""";
  "        DESTINATION ""${CMAKE_INSTALL_LIBDIR}/cmake/option""";
  "    )";
  "";
  "    # Install headers";
  "    install(";
  "        DIRECTORY   ""include/""";
  "        DESTINATION ""${CMAKE_INSTALL_INCLUDEDIR}""";
  "    )";
  "    # Install natvis and natstepfilter";
  "    install(";
  "        FILES ""${PROJECT_SOURCE_DIR}/debugger/option.natvis""";
  "              ""${PROJECT_SOURCE_DIR}/debugger/option.natstepfilter""";
  "        DESTINATION ""${CMAKE_INSTALL_DATAROOTDIR}/debugger""";
  "    )";
  "endif()"
].

(** test/CMakeLists.txt *)
Definition test_txt : list string := [
  "";
  "include(""${PROJECT_SOURCE_DIR}/cmake/compiler_warnings.cmake"")";
  "";
  "add_executable(option-test";
  "    ""option.test.cpp""";
  "    ""operators.test.cpp""";
  "    ""special.test.cpp""";
  "    ""lifetime.test.cpp""";
  "    ""special_traits.test.cpp""";
  "    ""forward_std.test.cpp""";
  "    ""meta.test.cpp""";
  "    ""functions.test.cpp""";
  "    ""constexpr.test.cpp""";
  "    ""main.cpp""";
  "    ";
  "    ""utils.hpp""";
  ")";
  "target_add_warnings(option-test)";
  "target_link_libraries(option-test PRIVATE option)";
  "if (CMAKE_CXX_COMPILER_ID STREQUAL ""MSVC"")";
  "    target_compile_options(option-test PRIVATE";
  "        /Zc:preprocessor /Zc:__cplusplus /bigobj /MP /fp:strict";
  "    )";
  "endif()";
  "";
  "set(FETCHCONTENT_UPDATES_DISCONNECTED TRUE CACHE BOOL """")";
  "include(FetchContent)";
  "FetchContent_Declare(";
  "    doctest";
  "    URL https://github.com/doctest/doctest/archive/refs/tags/v2.4.11.zip";
  "    URL_HASH SHA512=c4b0a7b88b577e2d95c8da45f19508ea615a4c6d0ccdc2c458922ac83b6f87631c0ae25fa5cb2052c90b2484917440fb83b6d1cdd5b1ee71780a4f7a632170ee";
  "    FIND_PACKAGE_ARGS 2.4.11";
  ")";
  "FetchContent_MakeAvailable(doctest)";
  "";
  "target_link_libraries(option-test PRIVATE doctest::doctest)";
  "target_compile_definitions(option-test PRIVATE";
  "    DOCTEST_CONFIG_NO_MULTITHREADING # https://github.com/doctest/doctest/blob/master/doc/markdown/configuration.md#doctest_config_no_multithreading";
  "    DOCTEST_CONFIG_SUPER_FAST_ASSERTS # https://github.com/doctest/doctest/blob/master/doc/markdown/configuration.md#doctest_config_super_fast_asserts";
  ")";
  "";
  "FetchContent_Declare(";
  "    boost_pfr";
  "    URL https://github.com/boostorg/pfr/archive/refs/tags/2.2.0.zip";
  "    URL_HASH SHA256=becb093245149209b0442e88737495c99114c639dc2121d0e4c08157c034ed03";
  "    FIND_PACKAGE_ARGS 2.2.0";
  ")";
  "FetchContent_MakeAvailable(boost_pfr)";
  "set_target_properties(boost_pfr PROPERTIES INTERFACE_SYSTEM_INCLUDE_DIRECTORIES $<TARGET_PROPERTY:boost_pfr,INTERFACE_INCLUDE_DIRECTORIES>)";
  "target_link_libraries(option-test PRIVATE Boost::pfr)";
  "";
  "if (USE_LIBASSERT)";
  "    FetchContent_Declare(";
  "        libassert";
  "        URL https://github.com/jeremy-rifkin/libassert/archive/refs/tags/v2.1.0.tar.gz";
  "        URL_HASH SHA256=e42405b49cde017c44c78aacac35c6e03564532838709031e73d10ab71f5363d";
  "        FIND_PACKAGE_ARGS 2.1.0";
  "    )";
  "    set(CMAKE_SKIP_INSTALL_RULES TRUE)";
  "    FetchContent_MakeAvailable(libassert)";
  "    # set_target_properties(libassert-lib PROPERTIES INTERFACE_SYSTEM_INCLUDE_DIRECTORIES $<TARGET_PROPERTY:libassert-lib,INTERFACE_INCLUDE_DIRECTORIES>)";
  "    target_link_libraries(option-test PRIVATE libassert::assert)";
  "    if (CMAKE_SYSTEM_NAME MATCHES ""Windows"")";
  "        add_custom_command(TARGET option-test POST_BUILD";
  "            COMMAND ""${CMAKE_COMMAND}"" -E copy_if_different $<TARGET_FILE:libassert::assert> $<TARGET_FILE_DIR:option-test>";
  "        )";
  "    endif()";
  "    if (CMAKE_CXX_COMPILER_ID MATCHES ""Clang|GNU"")";
  "        set_target_properties(libassert-lib cpptrace-lib PROPERTIES COMPILE_OPTIONS ""-w"")";
  "    endif()";
  "endif()";
  "";
  "if (USE_CLANG_TIDY)";
  "    include(""${PROJECT_SOURCE_DIR}/cmake/clang_tidy.cmake"")";
  "    set_target_properties(option-test PROPERTIES EXPORT_COMPILE_COMMANDS TRUE)";
  "    add_clang_tidy_target(NAME clang-tidy";
  "        CONFIG ""${PROJECT_SOURCE_DIR}/.clang-tidy""";
  "        USE_COLOR QUIET SHOW_TIME";
  "    )";
  "endif()";
  "";
  "add_custom_target(run-option-test VERBATIM";
  "    COMMAND ""$<TARGET_FILE:option-test>""";
  ")"
].

(** test/codegen/CMakeLists.txt *)
Definition codegen_txt : list string := [
  "";
  "option(OLD_LIBSTDCPP """" FALSE)";
  "";
  "set_directory_properties(PROPERTIES COMPILE_OPTIONS """")";
  "";
  "add_library(option-codegen-test ""sample.cpp"")";
  "target_link_libraries(option-codegen-test PRIVATE option)";
  "";
  "if (CMAKE_CXX_COMPILER_ID MATCHES ""Clang|GNU"")";
  "    target_compile_options(option-codegen-test PRIVATE -w)";
  "endif()";
  "";
  "find_package(Python3 COMPONENTS Interpreter)";
  "if (Python3_Interpreter_FOUND)";
  "    set(current_conditions """")";
  "    if (CMAKE_CXX_COMPILER_ID STREQUAL ""MSVC"")";
  "        list(APPEND current_conditions ""msvc"")";
  "    elseif (CMAKE_CXX_COMPILER_ID MATCHES ""Clang"")";
  "        if (CMAKE_CXX_COMPILER_FRONTEND_VARIANT STREQUAL ""MSVC"")";
  "            list(APPEND current_conditions ""clang-cl"")";
  "        else()";
  "            list(APPEND current_conditions ""clang"")";
  "            include(CheckCXXSymbolExists)";
  "            check_cxx_symbol_exists(_LIBCPP_VERSION ""ciso646"" LIBCPP)";
  "            if (LIBCPP)";
  "                list(APPEND current_conditions ""libcpp"")";
  "            elseif (OLD_LIBSTDCPP)";
  "                list(APPEND current_conditions ""old-libstdcpp"")";
  "            else()";
  "                list(APPEND current_conditions ""libstdcpp"")";
  "            endif()";
  "        endif()";
  "    elseif (CMAKE_CXX_COMPILER_ID MATCHES ""GNU"")";
  "        list(APPEND current_conditions ""gcc"")";
  "        if (OLD_LIBSTDCPP)";
  "            list(APPEND current_conditions ""old-libstdcpp"")";
  "        endif()";
  "    elseif (CMAKE_CXX_COMPILER_ID STREQUAL ""IntelLLVM"")";
  "        list(APPEND current_conditions ""icx"")";
  "    else()";
  "        list(APPEND current_conditions ""unknown"")";
  "    endif()";
  "";
  "    find_program(llvm_objdump_path";
  "        NAMES llvm-objdump llvm-objdump-18 llvm-objdump-17 llvm-objdump-16 llvm-objdump-15 llvm-objdump-14 llvm-objdump-13 llvm-objdump-12 llvm-objdump-11 llvm-objdump-10 llvm-objdump-9";
  "    )";
  "    if (llvm_objdump_path)";
  "        add_custom_target(run-option-codegen-test VERBATIM";
  "            COMMAND ${Python3_EXECUTABLE} ""${PROJECT_SOURCE_DIR}/test/codegen/run.py""";
  "                ${llvm_objdump_path}";
  "                ""$<TARGET_FILE:option-codegen-test>""";
  "                ""${CMAKE_CURRENT_SOURCE_DIR}/sample.cpp""";
  "                ""${current_conditions}""";
  "                ""${CMAKE_CXX_COMPILER_VERSION}""";
  "        )";
  "    else()";
  "        message(STATUS ""llvm-objdump is not found: \""run-option-codegen-test\"" target was not created"")";
  "    endif()";
  "else()";
  "    message(STATUS ""Python3 is not found: \""run-option-codegen-test\"" target was not created"")";
  "endif()"
].

(** examples/CMakeLists.txt *)
Definition examples_txt : list string := [
  "";
  "set(file_list """")";
  "set(target_list """")";
  "";
  "macro(add_example name file)";
  "    add_executable(example-${name} EXCLUDE_FROM_ALL ${file})";
  "    target_link_libraries(example-${name} PRIVATE option)";
  "    list(APPEND file_list ""${CMAKE_CURRENT_SOURCE_DIR}/${file}"")";
  "    list(APPEND target_list ""$<TARGET_FILE:example-${name}>"")";
  "endmacro()";
  "";
  "add_example(methods methods.cpp)";
  "add_example(operators operators.cpp)";
  "add_example(functions functions.cpp)";
  "add_example(option-traits option_traits.cpp)";
  "";
  "find_package(Python3 COMPONENTS Interpreter)";
  "if (Python3_Interpreter_FOUND)";
  "    add_custom_target(check-option-examples VERBATIM";
  "        COMMAND ${Python3_EXECUTABLE} ""./check.py"" ""${file_list}"" ""${target_list}""";
  "        WORKING_DIRECTORY ${CMAKE_CURRENT_SOURCE_DIR}";
  "    )";
  "else()";
  "    message(STATUS ""Python3 is not found: \""check-option-examples\"" target is not created"")";
  "endif()"
].

(** benchmark/CMakeLists.txt *)
Definition benchmark_txt : list string := [
  "";
  "find_package(Python3 COMPONENTS Interpreter)";
  "if (Python3_Interpreter_FOUND)";
  "    add_custom_command(";
  "        OUTPUT ""${CMAKE_CURRENT_BINARY_DIR}/benchmark_opt_option_src.cpp""";
  "        COMMAND ${Python3_EXECUTABLE} ""${PROJECT_SOURCE_DIR}/benchmark/generate.py""";
  "            ""opt::option""";
  "            ""${CMAKE_CURRENT_BINARY_DIR}/benchmark_opt_option_src.cpp""";
  "            ""2000""";
  "        VERBATIM";
  "    )";
  "    add_library(build-benchmark-opt-option EXCLUDE_FROM_ALL ""${CMAKE_CURRENT_BINARY_DIR}/benchmark_opt_option_src.cpp"")";
  "    target_link_libraries(build-benchmark-opt-option PRIVATE option)";
  "    set_property(TARGET build-benchmark-opt-option PROPERTY RULE_LAUNCH_COMPILE ""${CMAKE_COMMAND} -E time"")";
  "";
  "    add_custom_command(";
  "        OUTPUT ""${CMAKE_CURRENT_BINARY_DIR}/benchmark_std_optional_src.cpp""";
  "        COMMAND ${Python3_EXECUTABLE} ""${PROJECT_SOURCE_DIR}/benchmark/generate.py""";
  "            ""std::optional""";
  "            ""${CMAKE_CURRENT_BINARY_DIR}/benchmark_std_optional_src.cpp""";
  "            ""2000""";
  "        VERBATIM";
  "    )";
  "    add_library(build-benchmark-std-optional EXCLUDE_FROM_ALL ""${CMAKE_CURRENT_BINARY_DIR}/benchmark_std_optional_src.cpp"")";
  "    target_compile_features(build-benchmark-std-optional PRIVATE cxx_std_17)";
  "    set_property(TARGET build-benchmark-std-optional PROPERTY RULE_LAUNCH_COMPILE ""${CMAKE_COMMAND} -E time"")";
  "else()";
  "    message(STATUS ""Python3 is not found: \""build-benchmark\"" target was not created"")";
  "endif()"
].

(** cmake/clang_tidy.cmake *)
Definition clang_tidy_cmake : list string := [
  "include_guard(GLOBAL)";
  "";
  "function(add_clang_tidy_target)";
  "    if (NOT CMAKE_GENERATOR MATCHES ""Unix Makefiles|Ninja"")";
  "        return()";
  "    endif()";
  "    cmake_parse_arguments(ARG ""USE_COLOR;QUIET;SHOW_TIME"" ""NAME;CONFIG;LINE_FILTER;HEADER_FILTER"" """" ${ARGN})";
  "";
  "    set(run_clang_tidy ""${PROJECT_BINARY_DIR}/run-clang-tidy.py"")";
  "";
  "    file(DOWNLOAD https://raw.githubusercontent.com/llvm/llvm-project/main/clang-tools-extra/clang-tidy/tool/run-clang-tidy.py";
  "        ${run_clang_tidy} STATUS download_status)";
  "";
  "    list(GET download_status 0 status_code)";
  "    if (NOT ${status_code} EQUAL 0)";
  "        list(GET download_status 1 error_msg)";
  "        message(WARNING ""[clang-tidy] Error with code '${status_code}' occurred during downloading 'run-clang-tidy.py': ${error_msg}"")";
  "        return()";
  "    endif()";
  "    find_package(Python3 QUIET COMPONENTS Interpreter)";
  "    if (NOT Python3_Interpreter_FOUND)";
  "        message(WARNING ""[clang-tidy] Python3 Interpreter is not found"")";
  "        return()";
  "    endif()";
  "    find_program(clang_tidy_binary clang-tidy)";
  "    if (clang_tidy_binary STREQUAL ""clang_tidy_binary-NOTFOUND"")";
  "        message(WARNING ""[clang-tidy] clang-tidy is not found"")";
  "        return()";
  "    endif()";
  "";
  "    if (ARG_LINE_FILTER)";
  "        set(line_filter_arg ""-line-filter=${ARG_LINE_FILTER}"")";
  "    endif()";
  "    if (ARG_HEADER_FILTER)";
  "        set(header_filer_arg ""-header-filter=${ARG_HEADER_FILTER}"")";
  "    endif()";
  "";
  "    add_custom_target(${ARG_NAME}";
  "        COMMAND ""${Python3_EXECUTABLE}"" ""${run_clang_tidy}"" -p ""${PROJECT_BINARY_DIR}""";
  "        -clang-tidy-binary ""${clang_tidy_binary}"" -config-file ""${ARG_CONFIG}""";
  "        $<$<BOOL:${ARG_USE_COLOR}>:-use-color> $<$<BOOL:${ARG_QUIET}>:-quiet>";
  "        ${line_filter_arg} ${header_filer_arg}";
  "        WORKING_DIRECTORY ""${PROJECT_SOURCE_DIR}"" VERBATIM";
  "        DEPENDS ""${run_clang_tidy}""";
  "        SOURCES ""${clang_tidy_config}""";
  "    )";
  "    if (SHOW_TIME)";
  "        set_target_properties(${ARG_NAME} PROPERTIES RULE_LAUNCH_CUSTOM ""\""${CMAKE_COMMAND}\"" -E time"")";
  "    endif()";
  "endfunction()"
].

(** cmake/compiler_warnings.cmake *)
Definition compiler_warnings_cmake : list string := [
  "include_guard(GLOBAL)";
  "";
  "function(target_add_warnings target)";
  "    if (CMAKE_CXX_COMPILER_ID STREQUAL ""MSVC"")";
  "        target_compile_options(${target} PRIVATE ";
  "        /Wall /WX /permissive-";
  "        /wd5027 # 'type': move assignment operator was implicitly defined as deleted";
  "        /wd4626 # 'derived class': assignment operator was implicitly defined as deleted because a base class assignment operator is inaccessible or deleted";
  "        /wd5026 # 'type': move constructor was implicitly defined as deleted";
  "        /wd4625 # 'derived class': copy constructor was implicitly defined as deleted because a base class copy constructor is inaccessible or deleted";
  "        /wd5264 # 'variable-name': 'const' variable is not used";
  "        /wd5262 # implicit fall-through occurs here between cases";
  "        /wd4820 # 'bytes' bytes padding added after construct 'member_name'";
  "        /wd4514 # 'function' : unreferenced inline function has been removed";
  "        /wd5246 # 'member': the initialization of a subobject should be wrapped in braces";
  "        /wd5045 # Compiler will insert Spectre mitigation for memory load if /Qspectre switch specified";
  "        /wd4710 # 'function' : function not inlined";
  "        /wd4711 # function 'function' selected for inline expansion";
  "        /wd4866 # 'file(line_number)' compiler may not enforce left-to-right evaluation order for call to operator_name";
  "        /wd4623 # 'derived class' : default constructor was implicitly defined as deleted";
  "        /wd4582 # 'type': constructor is not implicitly called";
  "        /wd4583 # 'type': destructor is not implicitly called";
  "        /wd4180 # qualifier applied to function type has no meaning; ignored";
  "        /wd4371 # 'classname': layout of class may have changed from a previous version of the compiler due to better packing of member 'member'";
  "        /wd4800 # implicit conversion from 'type' to bool. Possible information loss";
  "        /wd5243 # 'type': using incomplete class 'class-name' can cause ODR violation due to ABI limitation. You can workaround the issue by specifying inheritance keyword on the forward declaration of the class.";
  "        /wd4738 # storing 32-bit float result in memory, possible loss of performance";
  "        /wd4121 # 'symbol' : alignment of a member was sensitive to packing";
  "        /wd4574 # 'identifier' is defined to be '0': did you mean to use '#if identifier'?";
  "        )";
  "    elseif(CMAKE_CXX_COMPILER_ID MATCHES ""Clang|GNU"")";
  "        if (CMAKE_CXX_COMPILER_ID MATCHES ""Clang"")";
  "            set(clang_opts";
  "                -Wno-unused-member-function";
  "                -Wno-global-constructors";
  "                -Wno-c++98-compat-pedantic";
  "                -Wno-pre-c++14-compat";
  "                -Wno-pre-c++17-compat";
  "                -Wno-c++98-compat";
  "                -Wno-float-equal # Disable floating-point comparison warnings";
  "                -Wno-gnu-zero-variadic-macro-arguments";
  "                -Wconsumed";
  "            )";
  "        endif()";
  "        if (CMAKE_CXX_COMPILER_FRONTEND_VARIANT STREQUAL ""MSVC"")";
  "            set(clang_cl_opts";
  "                -Wno-unsafe-buffer-usage";
  "                -Wno-unused-macros";
  "                -Wno-unused-template";
  "            )";
  "        endif()";
  "        if (CMAKE_CXX_COMPILER_ID MATCHES ""GNU"")";
  "            set(gcc_opts";
  "                -Wno-stringop-overread # Warn for calls to string manipulation functions such as memchr, or strcpy that are determined to read past the end of the source sequence.";
  "                -Wno-maybe-uninitialized";
  "                -Wno-free-nonheap-object";
  "            )";
  "            if (CMAKE_CXX_COMPILER_VERSION VERSION_LESS ""13.0"")";
  "                list(APPEND gcc_opts -Wno-array-bounds)";
  "            endif()";
  "        endif()";
  "";
  "        target_compile_options(${target} PRIVATE";
  "        -Wall # Enables all the warnings";
  "        -Wextra # Enables some extra warning flags that are not enabled by -Wall";
  "        -Wpedantic # Issue all the warnings demanded by strict ISO C and ISO C++";
  "        -Wconversion # Warn for implicit conversions that may alter a value";
  "        -Werror # Make all warnings into errors.";
  "        -Wcast-align # Warn whenever a pointer is cast such that the required alignment of the target is increased";
  "        -Wunused # -Wunused options combined";
  "        -Wsign-conversion # Warn for implicit conversions that may change the sign of an integer value";
  "        -Wdouble-promotion # Give a warning when a value of type float is implicitly promoted to double";
  "        -Wold-style-cast # Warn for C style casting";
  "        -Wshadow # Warn whenever a local variable or type declaration shadows another variable";
  "        ${gcc_opts}";
  "        ${clang_opts}";
  "        ${clang_cl_opts}";
  "        )";
  "    endif()";
  "endfunction()"
].

(** cmake/sanitizers.cmake *)
Definition sanitizers_cmake : list string := [
  "include_guard(GLOBAL)";
  "";
  "function(get_target_name out)";
  "    set(out_tmp """")";
  "    foreach(target IN LISTS ARGN)";
  "        get_target_property(target_unaliased ${target} ALIASED_TARGET)";
  "        if (target_unaliased STREQUAL ""target_unaliased-NOTFOUND"")";
  "            list(APPEND out_tmp ${target})";
  "        elseif (target_unaliased)";
  "            list(APPEND out_tmp ${target_unaliased})";
  "        else()";
  "            list(APPEND out_tmp ${target})";
  "        endif()";
  "    endforeach()";
  "    set(${out} ${out_tmp} PARENT_SCOPE)";
  "endfunction()";
  "";
  "function(target_add_sanitizer target)";
  "    cmake_parse_arguments(ARG """" """" ""SANITIZERS;LIBRARIES;OPTIONS"" ${ARGN})";
  "    if (NOT ARG_SANITIZERS)";
  "        message(FATAL_ERROR ""Please select sanitizers that will be enabled for target '${target}'"")";
  "        return()";
  "    endif()";
  "";
  "    cmake_parse_arguments(sanitizers ""Address;Undefined;Fuzzer"" """" """" ${ARG_SANITIZERS})";
  "";
  "    get_target_name(libraries ${ARG_LIBRARIES})";
  "    set(options ${ARG_OPTIONS})";
  "";
  "    target_compile_options(${target} PRIVATE ${options})";
  "    if (CMAKE_SYSTEM_NAME STREQUAL ""Windows"")";
  "        if (CMAKE_CXX_COMPILER_ID STREQUAL ""MSVC"")";
  "            if (sanitizers_Address)";
  "                target_compile_definitions(${target} PRIVATE";
  "                    $<$<COMPILE_LANGUAGE:CXX>:_DISABLE_VECTOR_ANNOTATION _DISABLE_STRING_ANNOTATION>";
  "                )";
  "                target_compile_options(${target} PRIVATE";
  "                    $<$<COMPILE_LANGUAGE:CXX>:/fsanitize=address /Zi>";
  "                )";
  "                target_link_options(${target} PRIVATE";
  "                    $<$<COMPILE_LANGUAGE:CXX>:/DEBUG>";
  "                )";
  "            endif()";
  "            if (sanitizers_Fuzzer)";
  "                target_compile_options(${target} PRIVATE /fsanitize=fuzzer)";
  "            endif()";
  "            if (sanitizers_Address OR sanitizers_Fuzzer)";
  "                target_link_options(${target} PRIVATE $<$<CONFIG:Debug>:/INCREMENTAL:NO>)";
  "            endif()";
  "            return()";
  "        elseif(CMAKE_CXX_COMPILER_ID MATCHES ""Clang"" AND CMAKE_CXX_COMPILER_FRONTEND_VARIANT STREQUAL ""MSVC"")";
  "            if (sanitizers_Address)";
  "                # Address sanitizer is broken for Release config";
  "                set_property(TARGET ${target} ${libraries} APPEND";
  "                    PROPERTY COMPILE_OPTIONS $<$<NOT:$<CONFIG:Release>>:-fsanitize=address>";
  "                )";
  "                set_target_properties(${target} ${libraries} PROPERTIES MSVC_RUNTIME_LIBRARY ""MultiThreaded"")";
  "";
  "                find_library(clang_rt_asan";
  "                    NAMES ""clang_rt.asan-x86_64.lib""";
  "                    PATHS ""$ENV{ProgramFiles}/LLVM/lib/clang/18/lib/windows""";
  "                )";
  "                if (NOT clang_rt_asan STREQUAL ""clang_rt_asan-NOTFOUND"")";
  "                    cmake_path(REPLACE_FILENAME clang_rt_asan ""clang_rt.asan_cxx-x86_64.lib"" OUTPUT_VARIABLE clang_rt_asan_cxx)";
  "                else()";
  "                    set(clang_rt_asan ""clang_rt.asan-x86_64.lib"")";
  "                    set(clang_rt_asan_cxx ""clang_rt.asan_cxx-x86_64.lib"")";
  "                endif()";
  "                target_link_libraries(${target} PRIVATE ${clang_rt_asan} ${clang_rt_asan_cxx})";
  "            endif()";
  "            if (sanitizers_Fuzzer)";
  "                target_compile_options(${target} PRIVATE -fsanitize=fuzzer)";
  "                if (sanitizers_Address OR sanitizers_Undefined)";
  "                    target_link_libraries(${target} PRIVATE clang_rt.fuzzer_MT-x86_64.lib)";
  "                else()";
  "                    set_target_properties(${target} PROPERTIES MSVC_RUNTIME_LIBRARY ""MultiThreaded$<$<CONFIG:Debug>:Debug>"")";
  "                    target_link_libraries(${target} PRIVATE";
  "                        clang_rt.fuzzer_MT$<$<CONFIG:Debug>:d>-x86_64.lib";
  "                    )";
  "                endif()";
  "            endif()";
  "            if (sanitizers_Undefined)";
  "                target_compile_options(${target} PRIVATE";
  "                    -fsanitize=undefined,integer,alignment,bool,builtin,function,null,unreachable";
  "                    -fno-sanitize=unsigned-integer-overflow,unsigned-shift-base";
  "                    -fno-sanitize-recover=all";
  "                )";
  "                set_target_properties(${target} ${libraries} PROPERTIES MSVC_RUNTIME_LIBRARY ""MultiThreaded"")";
  "                target_link_libraries(${target} PRIVATE";
  "                    clang_rt.ubsan_standalone_cxx-x86_64.lib";
  "                    clang_rt.ubsan_standalone-x86_64.lib";
  "                )";
  "            endif()";
  "            return()";
  "        elseif(CMAKE_CXX_COMPILER_ID MATCHES ""Clang"")";
  "            ";
  "            set_property(TARGET ${target} ${libraries} APPEND PROPERTY COMPILE_DEFINITIONS _DISABLE_STRING_ANNOTATION _DISABLE_VECTOR_ANNOTATION)";
  "            target_link_options(${target} PRIVATE -coverage)";
  "            if (sanitizers_Address)";
  "                set_property(TARGET ${target} ${libraries} APPEND PROPERTY COMPILE_OPTIONS -fsanitize=address)";
  "                target_link_options(${target} PRIVATE -fsanitize=address)";
  "            endif()";
  "            if (sanitizers_Undefined)";
  "                set_property(TARGET ${target} ${libraries} APPEND PROPERTY COMPILE_OPTIONS -fsanitize=undefined)";
  "                target_link_options(${target} PRIVATE -fsanitize=undefined)";
  "            endif()";
  "            set_target_properties(${target} ${libraries} PROPERTIES MSVC_RUNTIME_LIBRARY ""MultiThreaded"")";
  "            return()";
  "        endif()";
  "    endif()";
  "    if (sanitizers_Address)";
  "        target_compile_options(${target} PRIVATE -fsanitize=address)";
  "        target_link_options(${target} PRIVATE -fsanitize=address)";
  "    endif()";
  "    if (sanitizers_Undefined)";
  "        target_compile_options(${target} PRIVATE -fsanitize=undefined)";
  "        target_link_options(${target} PRIVATE -fsanitize=undefined)";
  "    endif()";
  "endfunction()"
].

(** cmake/option-config.cmake.in *)
Definition option_config_cmake_in : list string := [
  "@PACKAGE_INIT@";
  "";
  "include(""${CMAKE_CURRENT_LIST_DIR}/option-targets.cmake"")";
  "";
  "if (NOT DEFINED OPTION_USE_NATVIS OR OPTION_USE_NATVIS)";
  "    target_sources(option INTERFACE ""@CMAKE_INSTALL_FULL_DATAROOTDIR@/debugger/option.natvis"")";
  "endif()";
  "if (NOT DEFINED OPTION_USE_NATSTEPFILTER OR OPTION_USE_NATSTEPFILTER)";
  "    target_sources(option INTERFACE ""@CMAKE_INSTALL_FULL_DATAROOTDIR@/debugger/option.natstepfilter"")";
  "endif()"
].

(** test/cmake/find_package/CMakeLists.txt *)
Definition use_find_package : list string := [
  "cmake_minimum_required(VERSION 3.24 FATAL_ERROR)";
  "";
  "project(option-find_package)";
  "";
  "find_package(option REQUIRED)";
  "";
  "add_executable(option-find_package-target ""main.cpp"")";
  "target_link_libraries(option-find_package-target PRIVATE option)";
  "";
  "add_custom_target(run VERBATIM COMMAND ""$<TARGET_FILE:option-find_package-target>"")"
].

(** test/cmake/FetchContent/CMakeLists.txt *)
Definition use_fetch_content : list string := [
  "cmake_minimum_required(VERSION 3.24 FATAL_ERROR)";
  "";
  "project(option-FetchContent)";
  "";
  "include(FetchContent)";
  "FetchContent_Declare(";
  "    option";
  "    GIT_REPOSITORY ${GIT_REPOSITORY}";
  "    GIT_TAG        ${GIT_TAG}";
  ")";
  "FetchContent_MakeAvailable(option)";
  "";
  "add_executable(option-FetchContent-target ""main.cpp"")";
  "target_link_libraries(option-FetchContent-target PRIVATE option)";
  "";
  "add_custom_target(run VERBATIM COMMAND ""$<TARGET_FILE:option-FetchContent-target>"")"
].

(** test/cmake/add_subdirectory/CMakeLists.txt *)
Definition use_add_subdirectory : list string := [
  "cmake_minimum_required(VERSION 3.24 FATAL_ERROR)";
  "";
  "project(option-add_subdirectory)";
  "";
  "add_executable(option-add_subdirectory-target ""main.cpp"")";
  "";
  "add_subdirectory(${ROOT} ""${CMAKE_BINARY_DIR}/option"")";
  "";
  "target_link_libraries(option-add_subdirectory-target PRIVATE option)";
  "";
  "add_custom_target(run VERBATIM COMMAND ""$<TARGET_FILE:option-add_subdirectory-target>"")"
].

(** test/cmake/ExternalProject/CMakeLists.txt *)
Definition use_external_project : list string := [
  "cmake_minimum_required(VERSION 3.24 FATAL_ERROR)";
  "";
  "project(option-ExternalProject)";
  "";
  "include(ExternalProject)";
  "ExternalProject_Add(";
  "    option";
  "    PREFIX ""${CMAKE_BINARY_DIR}/option""";
  "    GIT_REPOSITORY ${GIT_REPOSITORY}";
  "    GIT_TAG ${GIT_TAG}";
  "    TIMEOUT 10";
  "    CMAKE_COMMAND ${CMAKE_COMMAND} -E env --unset=CFLAGS --unset=CXXFLAGS -- ${CMAKE_COMMAND}";
  "    INSTALL_COMMAND """"";
  "    TEST_COMMAND ${CMAKE_COMMAND} --build . --target run-option-test";
  ")";
  "ExternalProject_Get_Property(option source_dir)";
  "";
  "add_executable(option-ExternalProject-target ""main.cpp"")";
  "target_compile_features(option-ExternalProject-target PRIVATE cxx_std_17)";
  "target_include_directories(option-ExternalProject-target SYSTEM PRIVATE ""${source_dir}/include"")";
  "";
  "add_custom_target(run VERBATIM COMMAND ""$<TARGET_FILE:option-ExternalProject-target>"")"
].
