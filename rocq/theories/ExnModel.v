(** Model of the handlers of Main: /repo/TestingFramework/tfRegressionTest.cpp 53 (CATCH_STDEXCEPTION), 297-298, 316-332, 794-800, with exceptions as objects of C++ classes.
    A class is its name and its direct bases (public or not, virtual or not); equal names mean the same class.  [catch (E &)] takes an object of class [T] if [T] is [E] or [E] is an unambiguous public
    base of [T] (ISO C++ [except.handle]); handlers are tried in order.  Not modelled: exceptions that are pointers or functions are values without class. *)
From Verif Require Import Base Str Dec MeasModel.

(** * Classes *)
Inductive class := Class (name : str) (direct : bases)
with bases := NoBase | And (public virtual : bool) (c : class) (others : bases).
(** A base subobject: virtual ones are shared by all paths to them, so that the path below the last virtual step identifies them.  [bool]: is there a virtual step. *)
Definition place := (bool * list str)%type.
Definition below (n : str) (virtual : bool) (k : place) : place :=
  match k with (true, _) => k | (false, p) => if virtual then (true, p) else (false, n :: p) end.
(** all subobjects of an object, and whether the path to them is public; those that several paths lead to more than once *)
Fixpoint subobjects (c : class) : list (place * bool) := match c with Class n bs => ((false, [n]), true) :: under n bs end
with under (n : str) (bs : bases) : list (place * bool) :=
  match bs with
  | NoBase => []
  | And public virtual c others => map (fun x => (below n virtual (fst x), snd x && public)) (subobjects c) ++ under n others
  end.
Fixpoint eq_path (a b : list str) : bool := match a, b with [], [] => true | x :: a', y :: b' => eqs x y && eq_path a' b' | _, _ => false end.
Definition eq_place (a b : place) : bool := Bool.eqb (fst a) (fst b) && eq_path (snd a) (snd b).
Definition class_of (k : place) : str := last (snd k) [].
(** does [catch (E &)] take an object of class [t] *)
Definition takes (E : str) (t : class) : bool :=
  match List.filter (fun x => eqs (class_of (fst x)) E) (subobjects t) with
  | [] => false
  | x :: l => forallb (fun y => eq_place (fst y) (fst x)) l && existsb snd (x :: l)
  end.

(** * Main *)
(** 317-328 *)
Definition clauses : list str :=
  [$"std::length_error"; $"std::domain_error"; $"std::out_of_range"; $"std::invalid_argument"; $"std::bad_alloc"; $"std::bad_cast"; $"std::range_error"; $"std::overflow_error";
   $"std::underflow_error"; $"std::runtime_error"; $"std::logic_error"; $"std::exception"].
(** what() of the object: a text, or an exception *)
Inductive what := Says (text : str) | Fails.
(** something thrown: an object of a class, or a value of another type *)
Inductive thrown := Thrown (c : class) (w : what) | Value.
(** the handler that is entered; [None]: [catch (...)], 329 *)
Definition handler (t : thrown) : option str := match t with Thrown c _ => find (fun E => takes E c) clauses | Value => None end.
(** The text on the standard error, and whether the process goes on.  what() fails: the function may not throw.  [specs]: it is a C++98 implementation, which calls the unexpected handler first
    (797); the terminate handler (798) is called, and when it returns the process is aborted.  [first]: the name is printed before what() is called (C++98 leaves it open). *)
Definition entered (specs first : bool) (t : thrown) : str * bool :=
  match handler t with
  | None => ($"unknow exception" ++ [nl], true)                                                  (* 330 *)
  | Some E =>
      match t with
      | Thrown _ (Says text) => (E ++ $": " ++ [chr 34] ++ cstr text ++ [chr 34] ++ [nl], true)  (* 53 *)
      | _ => ((if first then E ++ $": " ++ [chr 34] else []) ++ (if specs then $"unexpected error!" ++ [nl] else []) ++ $"terminated!" ++ [nl], false)
      end
  end.
(** as RegModel has it *)
Definition kind_of (t : thrown) : exn := match handler t with Some _ => ExnRuntime | None => ExnOther end.
