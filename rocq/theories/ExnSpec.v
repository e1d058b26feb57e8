(** Which handler takes an exception (specification for C88): base subobjects, unambiguous public bases, the classes of the standard library. *)
From Coq Require Import Relations.
From Verif Require Import Base Str ExnModel.

Fixpoint direct (bs : bases) (public virtual : bool) (c : class) : Prop :=
  match bs with NoBase => False | And p v c' others => (p = public /\ v = virtual /\ c' = c) \/ direct others public virtual c end.
(** [subobject c k p]: [k] is a base subobject of an object of class [c] (or the object), on a path that is public if [p].  Within an object every path of non-virtual bases is a subobject of its
    own; a virtual base is one subobject, however it is reached. *)
Inductive subobject : class -> place -> bool -> Prop :=
| so_object n bs : subobject (Class n bs) (false, [n]) true
| so_own n bs public c k p : direct bs public false c -> subobject c (false, k) p -> subobject (Class n bs) (false, n :: k) (p && public)
| so_shared n bs public c k p : direct bs public true c -> subobject c (false, k) p -> subobject (Class n bs) (true, k) (p && public)
| so_shared_below n bs public virtual c k p : direct bs public virtual c -> subobject c (true, k) p -> subobject (Class n bs) (true, k) (p && public).
(** [E] is the class of the object or an unambiguous public base of it *)
Definition is_a (c : class) (E : str) : Prop :=
  exists k, subobject c k true /\ last (snd k) [] = E /\ forall k' p, subobject c k' p -> last (snd k') [] = E -> k' = k.

(** the standard library: direct bases *)
Inductive standard : str -> str -> Prop :=
| st_length : standard ($"std::length_error") ($"std::logic_error")
| st_domain : standard ($"std::domain_error") ($"std::logic_error")
| st_range : standard ($"std::out_of_range") ($"std::logic_error")
| st_argument : standard ($"std::invalid_argument") ($"std::logic_error")
| st_range_error : standard ($"std::range_error") ($"std::runtime_error")
| st_overflow : standard ($"std::overflow_error") ($"std::runtime_error")
| st_underflow : standard ($"std::underflow_error") ($"std::runtime_error")
| st_logic : standard ($"std::logic_error") ($"std::exception")
| st_runtime : standard ($"std::runtime_error") ($"std::exception")
| st_alloc : standard ($"std::bad_alloc") ($"std::exception")
| st_cast : standard ($"std::bad_cast") ($"std::exception").
Definition derives : str -> str -> Prop := clos_trans str standard.
(** the classes that have a message of their own *)
Definition named (E : str) : Prop := E = $"std::exception" \/ exists B, standard E B.
(** single public inheritance: the classes from the object's up *)
Inductive line_of : class -> list str -> Prop :=
| lo_root n : line_of (Class n NoBase) [n]
| lo_derived n virtual c ns : line_of c ns -> line_of (Class n (And true virtual c NoBase)) (n :: ns).
(** named classes have only the bases the standard gives them *)
Definition standard_bases (ns : list str) : Prop := forall l1 E l2 D, ns = l1 ++ E :: l2 -> named E -> named D -> In D l2 -> derives E D.
