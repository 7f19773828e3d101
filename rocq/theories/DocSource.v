(** The code equivalents of docs/reference.md, line by line, without the lines of the fences.  Generated by reading
    the file; [doc_n] begins at line n. *)
From Coq Require Import List String.
Import ListNotations.
Open Scope string_scope.

Definition doc_55 : list string :=
  ["if (other.has_value()) {";
   "    {construct}(other.get());";
   "}"].
Definition doc_77 : list string :=
  ["if (other.has_value()) {";
   "    {construct}(std::move(other.get()));";
   "}"].
Definition doc_169 : list string :=
  ["if (other.has_value()) {";
   "    {construct}(other.get());";
   "}"].
Definition doc_196 : list string :=
  ["if (other.has_value()) {";
   "    {construct}(std::move(other.get()));";
   "}"].
Definition doc_247 : list string :=
  ["if (other.has_value()) {";
   "    if (has_value()) {";
   "        get() = other.get();";
   "    } else {";
   "        {construct}(other.get());";
   "    }";
   "} else {";
   "    reset();";
   "}"].
Definition doc_280 : list string :=
  ["if (other.has_value()) {";
   "    if (has_value()) {";
   "        get() = std::move(other.get());";
   "    } else {";
   "        {construct}(std::move(other.get()));";
   "    }";
   "} else {";
   "    reset();";
   "}"].
Definition doc_313 : list string :=
  ["if (has_value()) {";
   "    get() = std::forward<U>(value);";
   "} else {";
   "    {construct}(std::forward<U>(value));";
   "}"].
Definition doc_344 : list string :=
  ["if (other.has_value()) {";
   "    if (has_value()) {";
   "        get() = other.get();";
   "    } else {";
   "        {construct}(other.get());";
   "    }";
   "} else {";
   "    reset();";
   "}"].
Definition doc_382 : list string :=
  ["if (other.has_value()) {";
   "    if (has_value()) {";
   "        get() = std::move(other.get());";
   "    } else {";
   "        {construct}(std::move(other.get()));";
   "    }";
   "} else {";
   "    reset();";
   "}"].
Definition doc_434 : list string :=
  ["reset();";
   "{construct}(std::forward<Args>(args)...);"].
Definition doc_453 : list string :=
  ["if (!has_value()) {";
   "    {construct}(std::forward<Args>(args)...);";
   "}"].
Definition doc_490 : list string :=
  ["if (has_value()) {";
   "    return predicate(get());";
   "}";
   "return false;"].
Definition doc_522 : list string :=
  ["option tmp{std::move(*this)};";
   "reset();";
   "return tmp;"].
Definition doc_557 : list string :=
  ["if (has_value() && predicate(get())) {";
   "    return take();";
   "}";
   "return opt::none;"].
Definition doc_601 : list string :=
  ["if (has_value()) {";
   "    fn(get());";
   "}";
   "return *this;"].
Definition doc_707 : list string :=
  ["return has_value() ? get() : T(std::forward<U>(def));"].
Definition doc_733 : list string :=
  ["return has_value() ? get() : T(std::forward<Args>(args)...);"].
Definition doc_755 : list string :=
  ["if (has_value()) {";
   "    return fn(get());";
   "}";
   "return def;"].
Definition doc_790 : list string :=
  ["if (has_value()) {";
   "    return fn(get());";
   "}";
   "return def();"].
Definition doc_852 : list string :=
  ["if (has_value() && fn(get())) {";
   "    return get();";
   "}";
   "return opt::none;"].
Definition doc_900 : list string :=
  ["if (has_value()) {";
   "    return fn(get());";
   "}";
   "return opt::none;"].
Definition doc_943 : list string :=
  ["if (has_value()) {";
   "    return opt::option{fn(get())};";
   "}";
   "return opt::none;"].
Definition doc_979 : list string :=
  ["if (has_value()) {";
   "    return *this;";
   "}";
   "return fn();"].
Definition doc_1019 : list string :=
  ["if (!has_value() && !other.has_value()) {";
   "    return;";
   "}";
   "if (has_value() && other.has_value()) {";
   "    swap(get(), other.get());";
   "    return;";
   "}";
   "if (has_value()) {";
   "    other.{construct}(std::move(get()));";
   "    reset();";
   "    return;";
   "}";
   "{construct}(std::move(other.get()));";
   "other.reset();"].
Definition doc_1119 : list string :=
  ["if ((options.has_value() && ...)) {";
   "    return std::tuple{options.get()...};";
   "} else {";
   "    return opt::none;";
   "}"].
Definition doc_1154 : list string :=
  ["if ((options.has_value() && ...)) {";
   "    return fn(options.get()...);";
   "} else {";
   "    return opt::none;";
   "}"].
Definition doc_1191 : list string :=
  ["return value.map([](const From& x) { return To(x); });"].
Definition doc_1219 : list string :=
  ["if (nullable_ptr == nullptr) {";
   "    return opt::none;";
   "} else {";
   "    return *nullable_ptr;";
   "}"].
Definition doc_1285 : list string :=
  ["left.swap(right);"].
Definition doc_1308 : list string :=
  ["if (x.has_value()) {";
   "    return get<I>(x.get());";
   "}";
   "return opt::none;"].
Definition doc_1332 : list string :=
  ["if (x.has_value()) {";
   "    return get<T>(x.get());";
   "}";
   "return opt::none;"].
Definition doc_1357 : list string :=
  ["auto ptr = std::get_if<I>(v);";
   "if (ptr == nullptr) {";
   "    return opt::none;";
   "}";
   "return *ptr;"].
Definition doc_1383 : list string :=
  ["auto ptr = std::get_if<T>(v);";
   "if (ptr == nullptr) {";
   "    return opt::none;";
   "}";
   "return *ptr;"].
Definition doc_1477 : list string :=
  ["if (index >= container.size()) {";
   "    return opt::none;";
   "}";
   "return container[index];"].
Definition doc_1516 : list string :=
  ["if (container.size() == 0) {";
   "    return opt::none;";
   "}";
   "return container.front();"].
Definition doc_1545 : list string :=
  ["if (container.size() == 0) {";
   "    return opt::none;";
   "}";
   "return container.back();"].
Definition doc_1580 : list string :=
  ["if (opt.has_value()) {";
   "    return opt.get();";
   "}";
   "return opt::none;"].
Definition doc_1628 : list string :=
  ["if (opt.has_value()) {";
   "    return std::pair{opt::option{opt->first}, opt::option{opt->second}};";
   "} else {";
   "    return std::pair{opt::option<First>{opt::none}, opt::option<Second>{opt::none}};";
   "}"].
Definition doc_1677 : list string :=
  ["auto it = associative_container.find(key);";
   "if (it == associative_container.end()) {";
   "    return opt::none;";
   "}";
   "return it->second;"].
Definition doc_1686 : list string :=
  ["auto it = associative_container.find(key);";
   "if (it == associative_container.end()) {";
   "    return opt::none;";
   "}";
   "return *it;"].
Definition doc_1729 : list string :=
  ["if (left.has_value()) {";
   "    return left;";
   "}";
   "return right;"].
Definition doc_1771 : list string :=
  ["if (!left.has_value()) {";
   "    left = right;";
   "}";
   "return left;"].
Definition doc_1792 : list string :=
  ["if (left.has_value()) {";
   "    return right;";
   "}";
   "return opt::none;"].
Definition doc_1834 : list string :=
  ["if (left.has_value() && !right.has_value()) {";
   "    return left;";
   "}";
   "if (!left.has_value() && right.has_value()) {";
   "    return right;";
   "}";
   "return opt::none;"].
Definition doc_2132 : list string :=
  ["if (value.has_value()) {";
   "    return std::hash<T>{}(value.get());";
   "}";
   "return {disengaged_hash};"].
