(** The text of the example programs, line by line. *)
From Coq Require Import List String.
Import ListNotations.
Open Scope string_scope.

(** examples/methods.cpp *)
Definition methods_cpp : list string := [
  "#include <iostream>";
  "#include <opt/option.hpp>";
  "#include <array>";
  "#include <tuple>";
  "#include <utility>";
  "";
  "void has_value_and() {";
  "    opt::option<int> a = 3;";
  "";
  "    std::cout << a.has_value_and([](int x) { return x > 1; }) << '\n'; //$ true";
  "";
  "    a = 0;";
  "    std::cout << a.has_value_and([](int x) { return x > 1; }) << '\n'; //$ false";
  "";
  "    a = opt::none;";
  "    std::cout << a.has_value_and([](int x) { return x > 1; }) << '\n'; //$ false";
  "}";
  "";
  "void take() {";
  "    opt::option<int> a = 1;";
  "";
  "    std::cout << a.has_value() << '\n'; //$ true";
  "";
  "    auto b = a.take();";
  "";
  "    std::cout << a.has_value() << '\n'; //$ false";
  "    std::cout << *b << '\n'; //$ 1";
  "";
  "    a = opt::none;";
  "    b = a.take();";
  "    std::cout << a.has_value() << '\n'; //$ false";
  "    std::cout << b.has_value() << '\n'; //$ false";
  "}";
  "";
  "void take_if() {";
  "    opt::option<int> a = 1;";
  "";
  "    auto b = a.take_if([](int& x) {";
  "        x += 1;";
  "        return x >= 3;";
  "    });";
  "    std::cout << *a << '\n'; //$ 2";
  "    std::cout << b.has_value() << '\n'; //$ false";
  "";
  "    b = a.take_if([](int& x) {";
  "        x += 1;";
  "        return x >= 3;";
  "    });";
  "    std::cout << a.has_value() << '\n'; //$ false";
  "    std::cout << *b << '\n'; //$ 3";
  "}";
  "";
  "// skip insert()";
  "";
  "void inspect() {";
  "    opt::option<int> a = 1;";
  "";
  "    a.inspect([](int x) { std::cout << x << '\n'; }); //$ 1";
  "";
  "    a.map([](int x) { return x * 2; })";
  "     .inspect([](int x) { std::cout << x << '\n'; }) //$ 2";
  "     .map([](int x) { return float(x * 2) + 0.5f; })";
  "     .inspect([](float x) { std::cout << x << '\n'; }) //$ 4.5";
  "     .and_then([](float x) { return x > 5.f ? opt::option<double>{x} : opt::none; })";
  "     .inspect([](double x) { std::cout << x << '\n'; }); // will not print `x`";
  "}";
  "";
  "void map_or() {";
  "    opt::option<int> a = 2;";
  "";
  "    std::cout << a.map_or(0, [](int x) { return x * 200; }) << '\n'; //$ 400";
  "";
  "    a = opt::none;";
  "    std::cout << a.map_or(0, [](int x) { return x * 2; }) << '\n'; //$ 0";
  "}";
  "";
  "void map_or_else() {";
  "    opt::option<int> a = 3;";
  "";
  "    std::cout << a.map_or_else(";
  "        [] { std::cout << ""will not print""; return 0; },";
  "        [](int x) { return x + 1; }";
  "    ) << '\n'; //$ 4";
  "";
  "    a = opt::none;";
  "    std::cout << a.map_or_else(";
  "        [] { std::cout << ""will print ""; return -100; },";
  "        [](int x) { return x - 2; }";
  "    ) << '\n'; //$ will print -100";
  "}";
  "";
  "void ptr_or_null() {";
  "    int a = 2;";
  "";
  "    opt::option<int&> b = a;";
  "";
  "    std::cout << (b.ptr_or_null() == &a) << '\n'; //$ true";
  "";
  "    b = opt::none;";
  "    std::cout << b.ptr_or_null() << '\n'; //$ [nullptr]";
  "}";
  "";
  "void filter() {";
  "    const auto is_odd = [](auto x) {";
  "        return x % 2 != 0;";
  "    };";
  "    opt::option<int> a = 1;";
  "";
  "    std::cout << *a.filter(is_odd) << '\n'; //$ 1";
  "";
  "    a = 2;";
  "    std::cout << a.filter(is_odd).has_value() << '\n'; //$ false";
  "";
  "    a = opt::none;";
  "    std::cout << a.filter(is_odd).has_value() << '\n'; //$ false";
  "}";
  "";
  "void and_then() {";
  "    const auto do_something = [](int x) {";
  "        return x == 0 ? opt::option<float>{1.5f} : opt::none;";
  "    };";
  "";
  "    opt::option<int> a = 0;";
  "";
  "    std::cout << a.and_then(do_something).get() << '\n'; //$ 1.5";
  "";
  "    a = 1;";
  "    std::cout << a.and_then(do_something).has_value() << '\n'; //$ false";
  "";
  "    a = opt::none;";
  "    std::cout << a.and_then(do_something).has_value() << '\n'; //$ false";
  "}";
  "";
  "void map() {";
  "    const auto to_float = [](int x) {";
  "        return float(x) / 2.f;";
  "    };";
  "";
  "    opt::option<int> a = 1;";
  "";
  "    std::cout << a.map(to_float).get() << '\n'; //$ 0.5";
  "";
  "    a = opt::none;";
  "    std::cout << a.map(to_float).has_value() << '\n'; //$ false";
  "}";
  "";
  "void or_else() {";
  "    opt::option<int> a = 2;";
  "";
  "    std::cout << a.or_else(";
  "        [] { std::cout << ""will not print""; return opt::option{3}; }";
  "    ).get() << '\n'; //$ 2";
  "";
  "    a = opt::none;";
  "    std::cout << a.or_else(";
  "        [] { std::cout << ""will print ""; return opt::option{10}; }";
  "    ).get() << '\n'; //$ will print 10";
  "";
  "    std::cout << a.or_else(";
  "        [] { std::cout << ""will print ""; return opt::option<int>{}; }";
  "    ).has_value() << '\n'; //$ will print false";
  "}";
  "";
  "void begin() {";
  "    opt::option<int> a = 1;";
  "";
  "    std::cout << *(a.begin()) << '\n'; //$ 1";
  "";
  "    for (int& x : a) {";
  "        std::cout << x << '\n'; //$ 1";
  "        x = 2;";
  "        std::cout << x << '\n'; //$ 2";
  "    }";
  "";
  "    a = opt::none;";
  "    for (const int& x : a) {";
  "        std::cout << x << '\n';";
  "    }";
  "";
  "    opt::option<std::array<int, 3>> b{{1, 2, 3}};";
  "    for (const auto& v : b) {";
  "        for (const int& x : v) {";
  "            std::cout << x << ' '; //$ 1 2 3";
  "        }";
  "        std::cout << '\n';";
  "    }";
  "}";
  "";
  "void end() {";
  "    opt::option<int> a = 1;";
  "    std::cout << *(a.begin()) << '\n'; //$ 1";
  "    std::cout << *(--(a.end())) << '\n'; //$ 1";
  "    std::cout << (a.begin() == a.end()) << '\n'; //$ false";
  "    std::cout << (a.begin() + 1 == a.end()) << '\n'; //$ true";
  "";
  "    a = opt::none;";
  "    std::cout << (a.begin() == a.end()) << '\n'; //$ true";
  "}";
  "";
  "int main() {";
  "    std::cout << std::boolalpha;";
  "";
  "    has_value_and();";
  "    take();";
  "    take_if();";
  "    inspect();";
  "    map_or();";
  "    map_or_else();";
  "    ptr_or_null();";
  "    filter();";
  "    and_then();";
  "    map();";
  "    or_else();";
  "    begin();";
  "    end();";
  "}"
].

(** examples/operators.cpp *)
Definition operators_cpp : list string := [
  "#include <iostream>";
  "#include <opt/option.hpp>";
  "";
  "void or_operator() {";
  "    opt::option<int> a = 1;";
  "    opt::option<int> b = 2;";
  "";
  "    std::cout << (a | b).get() << '\n'; //$ 1";
  "";
  "    a = opt::none;";
  "    std::cout << (a | b).get() << '\n'; //$ 2";
  "";
  "    b = opt::none;";
  "    std::cout << (a | b).has_value() << '\n'; //$ false";
  "";
  "    // same as value_or(10)";
  "    std::cout << (a | 10) << '\n'; //$ 10";
  "";
  "    a |= 5;";
  "    std::cout << *a << '\n'; //$ 5";
  "    a |= 25;";
  "    std::cout << *a << '\n'; //$ 5";
  "";
  "    b |= a;";
  "    std::cout << *b << '\n'; //$ 5";
  "}";
  "";
  "void and_operator() {";
  "    opt::option<int> a = 1;";
  "    opt::option<float> b = 2.5f;";
  "";
  "    std::cout << (a & b).get() << '\n'; //$ 2.5";
  "";
  "    a = opt::none;";
  "    std::cout << (a & b).has_value() << '\n'; //$ false";
  "";
  "    a = 1;";
  "    b = opt::none;";
  "    std::cout << (a & b).has_value() << '\n'; //$ false";
  "}";
  "";
  "void xor_operator() {";
  "    opt::option<int> a = 2;";
  "    opt::option<int> b = 10;";
  "";
  "    std::cout << (a ^ b).has_value() << '\n'; //$ false";
  "";
  "    a = opt::none;";
  "    std::cout << (a ^ b).get() << '\n'; //$ 10";
  "";
  "    a = 5;";
  "    b = opt::none;";
  "    std::cout << (a ^ b).get() << '\n'; //$ 5";
  "";
  "    a = opt::none;";
  "    b = opt::none;";
  "    std::cout << (a ^ b).has_value() << '\n'; //$ false";
  "}";
  "";
  "int main() {";
  "    std::cout << std::boolalpha;";
  "";
  "    or_operator();";
  "    and_operator();";
  "    xor_operator();";
  "}"
].

(** examples/functions.cpp *)
Definition functions_cpp : list string := [
  "#include <iostream>";
  "#include <opt/option.hpp>";
  "#include <variant>";
  "#include <tuple>";
  "#include <vector>";
  "#include <functional>";
  "#include <array>";
  "";
  "void zip() {";
  "    opt::option<int> a{1};";
  "    opt::option<float> b{2.f};";
  "    opt::option<double> c{3.};";
  "";
  "    opt::option<std::tuple<int, float, double>> abc;";
  "    abc = opt::zip(a, b, c);";
  "    std::cout << abc.has_value() << '\n'; //$ true";
  "";
  "    a = opt::none;";
  "    abc = opt::zip(a, b, c);";
  "    std::cout << abc.has_value() << '\n'; //$ false";
  "}";
  "";
  "void zip_with() {";
  "    opt::option<int> a{10};";
  "    opt::option<float> b{5.f};";
  "";
  "    const auto add_and_print = [](int x, float y) {";
  "        std::cout << (x + y) << '\n';";
  "    };";
  "";
  "    opt::zip_with(add_and_print, a, b); //$ 15";
  "";
  "    a = opt::none;";
  "    opt::zip_with(add_and_print, a, b); // will not call `add_and_print`";
  "}";
  "";
  "void option_cast() {";
  "    opt::option<float> a{2.5f};";
  "    opt::option<int> b;";
  "";
  "    b = opt::option_cast<int>(a);";
  "    std::cout << *b << '\n'; //$ 2";
  "";
  "    a = opt::none;";
  "    b = opt::option_cast<int>(a);";
  "    std::cout << b.has_value() << '\n'; //$ false";
  "}";
  "";
  "void get() {";
  "    opt::option<std::tuple<int, float>> a{1, 2.f};";
  "";
  "    if (auto b = opt::get<0>(a)) {";
  "        std::cout << *b << '\n'; //$ 1";
  "        *b = 2;";
  "    }";
  "    std::cout << *opt::get<int>(a) << '\n'; //$ 2";
  "";
  "    opt::option<std::variant<int, float>> c{123};";
  "";
  "    if (auto d = opt::get<int>(c)) {";
  "        std::cout << *d << '\n'; //$ 123";
  "    }";
  "    c = 2.f;";
  "    if (auto d = opt::get<float>(c)) {";
  "        std::cout << *d << '\n'; //$ 2";
  "    }";
  "}";
  "";
  "void hash() {";
  "    opt::option<int> a{12345};";
  "";
  "    std::cout << std::hash<opt::option<int>>{}(a) << '\n'; //$ [number]";
  "";
  "    a = opt::none;";
  "    std::cout << std::hash<opt::option<int>>{}(a) << '\n'; //$ [number]";
  "}";
  "";
  "void io() {";
  "    opt::option<int> a;";
  "    std::cout << opt::io(a) << '\n'; //$";
  "    std::cout << opt::io(a, ""empty"") << '\n'; //$ empty";
  "";
  "    a = 1;";
  "    std::cout << opt::io(a) << '\n'; //$ 1";
  "    std::cout << opt::io(a, ""empty"") << '\n'; //$ 1";
  "}";
  "";
  "void at() {";
  "    std::vector<int> a{{10, 11, 12, 13, 14}};";
  "";
  "    std::cout << (opt::at(a, 0) == 10) << '\n'; //$ true";
  "    std::cout << (opt::at(a, 5) == 15) << '\n'; //$ false";
  "";
  "    a = {1, 2};";
  "    std::cout << (opt::at(a, 0) == 1) << '\n'; //$ true";
  "    std::cout << (opt::at(a, 1) == 2) << '\n'; //$ true";
  "    std::cout << (opt::at(a, 2) == 3) << '\n'; //$ false";
  "}";
  "";
  "void flatten() {";
  "    opt::option<opt::option<int>> a = 1;";
  "";
  "    opt::option<int> b = opt::flatten(a);";
  "    std::cout << *b << '\n'; //$ 1";
  "";
  "    *a = opt::none;";
  "    std::cout << opt::flatten(a).has_value() << '\n'; //$ false";
  "    a = opt::none;";
  "    std::cout << opt::flatten(a).has_value() << '\n'; //$ false";
  "";
  "    opt::option<opt::option<opt::option<float>>> c = 2.f;";
  "";
  "    opt::option<float> d = opt::flatten(c);";
  "    std::cout << *d << '\n'; //$ 2";
  "";
  "    c.get().get() = opt::none;";
  "    std::cout << opt::flatten(c).has_value() << '\n'; //$ false";
  "    c.get() = opt::none;";
  "    std::cout << opt::flatten(c).has_value() << '\n'; //$ false";
  "    c = opt::none;";
  "    std::cout << opt::flatten(c).has_value() << '\n'; //$ false";
  "}";
  "";
  "void unzip() {";
  "    opt::option<std::tuple<int, float>> a{1, 2.5f};";
  "";
  "    std::tuple<opt::option<int>, opt::option<float>> unzipped_a;";
  "    unzipped_a = opt::unzip(a);";
  "";
  "    std::cout << std::get<0>(unzipped_a).get() << '\n'; //$ 1";
  "    std::cout << std::get<1>(unzipped_a).get() << '\n'; //$ 2.5";
  "";
  "    opt::option<std::array<int, 3>> b = opt::none;";
  "";
  "    std::array<opt::option<int>, 3> unzipped_b = opt::unzip(b);";
  "";
  "    std::cout << (!unzipped_b[0] && !unzipped_b[1] && !unzipped_b[2]) << '\n'; //$ true";
  "}";
  "";
  "struct my_type {";
  "    int x;";
  "};";
  "";
  "template<>";
  "struct opt::option_traits<my_type> {";
  "    static constexpr std::uintmax_t max_level = 1;";
  "";
  "    static constexpr std::uintmax_t get_level(const my_type* const value) noexcept {";
  "        return value->x - 100;";
  "    }";
  "    static constexpr void set_level(my_type* const value, std::uintmax_t) noexcept {";
  "        value->x = 100;";
  "    }";
  "};";
  "";
  "void as_option() {";
  "    opt::option<my_type> a = opt::as_option(my_type{1});";
  "    std::cout << opt::io(a.map(&my_type::x), ""empty"") << '\n'; //$ 1";
  "";
  "    a = opt::as_option(my_type{100});";
  "    std::cout << opt::io(a.map(&my_type::x), ""empty"") << '\n'; //$ empty";
  "}";
  "";
  "int main() {";
  "    std::cout << std::boolalpha;";
  "    zip();";
  "    zip_with();";
  "    option_cast();";
  "    get();";
  "    hash();";
  "    io();";
  "    at();";
  "    flatten();";
  "    unzip();";
  "    as_option();";
  "}"
].

(** examples/option_traits.cpp *)
Definition option_traits_cpp : list string := [
  "#include <iostream>";
  "#include <opt/option.hpp>";
  "";
  "struct some_struct {";
  "    int val;";
  "};";
  "";
  "template<>";
  "struct opt::option_traits<some_struct> {";
  "    static constexpr std::uintmax_t max_level = 1;";
  "";
  "    static std::uintmax_t get_level(const some_struct* value) noexcept {";
  "        return value->val == -1 ? 0 : std::uintmax_t(-1);";
  "    }";
  "    static void set_level(some_struct* value, [[maybe_unused]] std::uintmax_t level) noexcept {";
  "        value->val = -1;";
  "    }";
  "};";
  "";
  "void custom() {";
  "    opt::option<some_struct> a{5};";
  "";
  "    std::cout << (sizeof(a) == sizeof(some_struct)) << '\n'; //$ true";
  "    std::cout << a->val << '\n'; //$ 5";
  "";
  "    a = opt::none;";
  "    std::cout << a.has_value() << '\n'; //$ false";
  "    std::cout << a.get_unchecked().val << '\n'; //$ -1";
  "}";
  "";
  "struct my_type {";
  "    unsigned x;";
  "";
  "    bool operator==(const my_type& other) const { return x == other.x; }";
  "};";
  "template<>";
  "struct opt::sentinel_option_traits<my_type> {";
  "    static constexpr my_type sentinel_value{0u};";
  "};";
  "";
  "void using_sentinel() {";
  "    opt::option<my_type> a{5u};";
  "";
  "    std::cout << (sizeof(a) == sizeof(my_type)) << '\n'; //$ true";
  "    std::cout << a->x << '\n'; //$ 5";
  "";
  "    a.reset();";
  "    std::cout << a.get_unchecked().x << '\n'; //$ 0";
  "";
  "    a = my_type{1u};";
  "    std::cout << a->x << '\n'; //$ 1";
  "    a->x = 0u;";
  "    std::cout << a.has_value() << '\n'; //$ false";
  "}";
  "";
  "struct my_type2 {";
  "    std::uint64_t x;";
  "    std::uint32_t y;";
  "    std::uint8_t PADDING{};";
  "};";
  "";
  "void with_padding() {";
  "    opt::option<my_type2> a{1u, 2u};";
  "";
  "    std::cout << (sizeof(a) == sizeof(my_type2)) << '\n'; //$ true";
  "    std::cout << ""x = "" << a->x << "" y = "" << a->y << '\n'; //$ x = 1 y = 2";
  "}";
  "";
  "int main() {";
  "    std::cout << std::boolalpha;";
  "";
  "    custom();";
  "    using_sentinel();";
  "    with_padding();";
  "}"
].
