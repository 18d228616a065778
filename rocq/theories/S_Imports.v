(** What it means that the generated Python modules import, and the generated C++ sources
    include, what they use. *)
From Coq Require Import String List Arith NArith ZArith Bool.
From Verif Require Import Base M_Schema.
Import ListNotations.
Open Scope list_scope.

(** Looking up a module which was not imported raises a NameError (or, for a module in a
    package, an AttributeError).  Importing a module which is not used is harmless, unless
    it is not installed. *)
Definition same_modules (imported used : list str) : Prop := forall m, In m imported <-> In m used.

(** The headers and what they declare, from cppreference.com and from the documentation of
    the third parties.  Only what the C++ standard promises is listed: that some header
    happens to include another one in some implementation does not count.  (Two liberties:
    the C headers declare their names in the global namespace, too, and <ctime> declares
    strptime, as POSIX promises.) *)
Definition declarations : list (str * list str) :=
  map (fun he => (s_ (fst he), map s_ (snd he)))
    [("cstdint", ["int64_t"]);
     ("string", ["std::string"; "std::to_string"; "std::stod"; "std::stol"]);
     ("vector", ["std::vector"]);
     ("map", ["std::map"]);
     ("memory", ["std::unique_ptr"; "std::make_unique"]);
     ("utility", ["std::move"]);
     ("filesystem", ["std::filesystem::path"]);
     ("optional", ["std::optional"]);
     ("ctime", ["struct tm"; "strptime"; "strftime"]);
     ("chrono", ["std::chrono::seconds"; "std::chrono::nanoseconds"]);
     ("cstring", ["strlen"; "size_t"]);
     ("cstdlib", ["std::atol"]);
     ("sstream", ["std::stringstream"; "std::istringstream"]);
     ("stdexcept", ["std::invalid_argument"; "std::domain_error"; "std::overflow_error"; "std::runtime_error"]);
     ("regex", ["std::regex"; "std::smatch"; "std::regex_match"]);
     ("limits", ["std::numeric_limits"]);
     ("iomanip", ["std::setfill"; "std::setw"]);
     ("boost/filesystem/path.hpp", ["boost::filesystem::path"]);
     ("boost/optional.hpp", ["boost::optional"]);
     ("optional.hpp", ["std::experimental::optional"]);
     ("date/date.h", ["date::local_days"; "date::local_seconds"; "date::time_of_day"; "date::parse"; "date::make_time"; "date::format"]);
     ("date/tz.h", ["date::time_zone"; "date::locate_zone"]);
     ("json/json.h", ["Json::Value"; "Json::ValueType"; "Json::ValueConstIterator"])]%string.
Definition declares (header entity : str) : Prop := exists l, In (header, l) declarations /\ In entity l.

(** One of the headers declares the entity. *)
Definition declared_in (headers : list str) (entity : str) : Prop := exists h, In h headers /\ declares h entity.
(** The header declares one of the entities. *)
Definition used_header (entities : list str) (header : str) : Prop := exists e, In e entities /\ declares header e.

(** The settings which mapry knows. *)
Definition known_cpp_settings (cpp : cpp_conf) : Prop :=
  In (cc_path_as cpp) (map s_ ["std::filesystem::path"; "boost::filesystem::path"]%string) /\
  In (cc_optional_as cpp) (map s_ ["boost::optional"; "std::optional"; "std::experimental::optional"]%string) /\
  In (cc_datetime_library cpp) (map s_ ["ctime"; "date.h"]%string).
