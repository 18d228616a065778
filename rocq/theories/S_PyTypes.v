(** What users expect from the generated Python module with the types. *)
From Coq Require Import String List Arith NArith ZArith Bool.
From Verif Require Import Base M_Naming M_Schema M_PyTypes S_Conform.
Import ListNotations.
Open Scope list_scope.

(** The settings which mapry knows (mapry/schemas.py). *)
Definition known_settings (py : py_conf) : Prop :=
  In (pc_path_as py) (map s_ ["str"; "pathlib.Path"]%string) /\
  In (pc_timezone_as py) (map s_ ["str"; "pytz.timezone"]%string).

(** No attribute has the name [a]. *)
Definition no_attribute (a : str) (g : graph) : Prop :=
  (forall ps p, In ps (composites g) -> In p ps -> lower (p_name p) <> a) /\
  forall c, In c (g_classes g) -> lower (c_plural c) <> a.

(** [i] is the class [d] once the module has been imported. *)
Definition means (m : module) (i : str) (d : definition) : Prop :=
  exists before after, mo_definitions m = before ++ d :: after /\ de_name d = i /\ ~ In i (map de_name after).

(** The arguments of a call: [required] and possibly [others], once each. *)
Definition call_with {V} (required others : list str) (args : list (str * value V)) : Prop :=
  NoDup (keys args) /\ incl required (keys args) /\ incl (keys args) (required ++ others).

Definition required_of (ps : list prop) : list str := map (fun p => lower (p_name p)) (filter (fun p => negb (p_optional p)) ps).
Definition optional_in (ps : list prop) : list str := map (fun p => lower (p_name p)) (filter p_optional ps).
Definition registries_of (g : graph) : list str := map (fun c => lower (c_plural c)) (g_classes g).

(** The attributes of a new object: the given ones, None for the missing optional ones,
    and nothing else. *)
Definition built {V} (required optional : list str) (args attrs : list (str * value V)) : Prop :=
  NoDup (keys attrs) /\ (forall a, In a (keys attrs) <-> In a (required ++ optional)) /\
  (forall a v, In (a, v) args -> In (a, v) attrs) /\
  forall a, In a optional -> ~ In a (keys args) -> In (a, VNone) attrs.

(** The attributes of a new object graph: the registries which are None or not given are
    new and empty. *)
Definition built_graph {V} (required optional registries : list str) (args attrs : list (str * value V)) : Prop :=
  NoDup (keys attrs) /\ (forall a, In a (keys attrs) <-> In a (required ++ optional ++ registries)) /\
  (forall a v, In (a, v) args -> In a registries -> v = VNone -> In (a, VEmptyRegistry) attrs) /\
  (forall a v, In (a, v) args -> ~ (In a registries /\ v = VNone) -> In (a, v) attrs) /\
  (forall a, In a optional -> ~ In a (keys args) -> In (a, VNone) attrs) /\
  forall a, In a registries -> ~ In a (keys args) -> In (a, VEmptyRegistry) attrs.
