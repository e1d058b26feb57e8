(** Model of FileUtilities/PathName.cpp and FileUtilities/FileUtilities.cpp (POSIX branches; the [WIN32]
    branches are not modelled).  A [PathName] is its string [pathName]; the fields [fileStat] and
    [statCached] are never read. *)
From Verif Require Import Base Str.

Definition slash : ascii := "/"%char.
Definition dot : ascii := "."%char.
Definition colon : ascii := ":"%char.

(** PathName.cpp 157-187: [GetPathType() == Absolute] *)
Definition is_absolute (p : str) : bool :=
  match p with [] => false | c :: _ => eqc c slash end.

(** PathName.cpp 145-147: the index at which the loop over trailing slashes stops, from [i] downwards;
    [path[i]] out of range is [UB]. *)
Fixpoint strip_index (path : str) (i : nat) : res nat :=
  match i with
  | 0 => Ok 0
  | S i' => c <-- rd i path ;; if eqc c slash then strip_index path i' else Ok i
  end.

(** PathName.cpp 129-154 *)
Definition Append (p f : str) : res str :=
  if is_absolute f || (length p =? 0) then Ok f
  else i <-- strip_index p (length p - 1) ;;
       Ok (firstn (i + 1) p ++ slash :: f).      (* path.erase(i+1, ...); path + '/' + f *)

(** PathName.cpp 189-202 *)
Definition DirectoryName (path : str) : str :=
  match rfind slash path with
  | None | Some 0 => $"."
  | Some i => substr path 0 i
  end.

(** PathName.cpp 205-221; [rfind(c, length-1)] is [rfind(c)]. *)
Definition Tail (path : str) : str :=
  if length path =? 0 then []
  else match rfind slash path with
       | None => path
       | Some i => substr path (i + 1) (length path - i - 1)
       end.

(** PathName.cpp 224-231 *)
Definition Extension (path : str) : str :=
  let tail := Tail path in
  match rfind dot tail with
  | None => []
  | Some i => substr tail (i + 1) (length tail - i - 1)
  end.

(** PathName.cpp 287-298; [isfile] is the answer of [IsFile] (stat and S_ISREG) for each path,
    [full] the local variable [fullFileName]. *)
Fixpoint search_loop (isfile : str -> bool) (pl : list str) (f full : str) : res str :=
  match pl with
  | [] => Ok full
  | e :: pl' => full <-- Append e f ;;
                if isfile full then Ok full else search_loop isfile pl' f full
  end.
Definition SearchPathList (isfile : str -> bool) (f : str) (pl : list str) : res str :=
  search_loop isfile pl f [].

(** FileUtilities.cpp 66-86: [GetPathListFromColonSeparatedList]; [i] runs over the string, fuel bounds
    the number of iterations. *)
Fixpoint colon_loop (fuel : nat) (value : str) (i : nat) : res (list str) :=
  match fuel with
  | 0 => Hang
  | S fuel' =>
      match find_from colon value i with
      | None => Ok [substr value i (length value - i)]
      | Some i' => rest <-- colon_loop fuel' value (i' + 1) ;; Ok (substr value i (i' - i) :: rest)
      end
  end.
Definition GetPathListFromColonSeparatedList (value : str) : res (list str) :=
  match value with [] => Ok [] | _ => colon_loop (S (length value)) value 0 end.

(** FileUtilities.cpp 57-64: [getenv] returns a C string or NULL. *)
Definition GetPathFromEnviroment (getenv : str -> option str) (env : str) : res (list str) :=
  match getenv (cstr env) with
  | None => Ok []
  | Some v => GetPathListFromColonSeparatedList v
  end.

(** * The operating system: a tree of directories and files without links, and a current directory.
    This is an environment model, not code of the repository. *)
Inductive node : Type :=
| File (r w x : bool)
| Dir (r w x : bool) (entries : list (str * node)).
Record os := Os { root : node; cwd : list str }.

Fixpoint assoc (k : str) (l : list (str * node)) : option node :=
  match l with [] => None | (k', v) :: l' => if eqs k k' then Some v else assoc k l' end.
Fixpoint lookup (n : node) (p : list str) : option node :=
  match p with
  | [] => Some n
  | c :: p' => match n with
               | File _ _ _ => None
               | Dir _ _ _ es => match assoc c es with Some n' => lookup n' p' | None => None end
               end
  end.
Definition is_dir_at (r : node) (p : list str) : bool :=
  match lookup r p with Some (Dir _ _ _ _) => true | _ => false end.

(** One step of path resolution: the current position must be an existing directory. *)
Definition walk1 (r : node) (pos : option (list str)) (c : str) : option (list str) :=
  match pos with
  | None => None
  | Some p =>
      if is_dir_at r p then
        if eqs c [] || eqs c ($".") then Some p
        else if eqs c ($"..") then Some (removelast p)
        else match lookup r (p ++ [c]) with Some _ => Some (p ++ [c]) | None => None end
      else None
  end.
Definition walk (r : node) (pos : option (list str)) (cs : list str) : option (list str) :=
  fold_left (walk1 r) cs pos.
(** the position named by a path, as seen by a system call *)
Definition resolve (s : os) (path : str) : option (list str) :=
  match cstr path with
  | [] => None
  | (c :: rest) as p => if eqc c slash then walk (root s) (Some []) (split slash rest)
            else walk (root s) (Some (cwd s)) (split slash p)
  end.
Definition stat (s : os) (path : str) : option node :=
  match resolve s path with Some p => lookup (root s) p | None => None end.

(** PathName.cpp 253-282 *)
Definition IsFile (s : os) (path : str) : bool :=
  match stat s path with Some (File _ _ _) => true | _ => false end.
Definition IsDirectory (s : os) (path : str) : bool :=
  match stat s path with Some (Dir _ _ _ _) => true | _ => false end.
Definition Exists (s : os) (path : str) : bool :=
  match stat s path with Some _ => true | None => false end.

(** [!access(path, mode)] for a mode given by the permissions asked for *)
Definition access (s : os) (path : str) (r w x : bool) : bool :=
  match stat s path with
  | Some (File pr pw px) | Some (Dir pr pw px _) => implb r pr && implb w pw && implb x px
  | None => false
  end.
(** PathName.cpp 233-251 *)
Definition IsWritable (s : os) (path : str) : bool := access s path false true (IsDirectory s path).
Definition IsReadable (s : os) (path : str) : bool := access s path true false (IsDirectory s path).
Definition IsExecutable (s : os) (path : str) : bool := access s path false false true.

(** PathName.cpp 302-324; [readdir] also reports the two dot entries.  Order is that of the model tree. *)
Definition SearchDirectory (s : os) (path : str) : list str :=
  if IsDirectory s path then
    match stat s path with
    | Some (Dir true _ _ es) => [$"."; $".."] ++ map fst es
    | _ => []
    end
  else [].

(** FileUtilities.cpp 89-93.  [chdir] needs search permission. *)
Definition SetCurrentDirectory (s : os) (path : str) : os * res bool :=
  if negb (IsDirectory s path) then (s, Throw ExnRuntime)
  else match resolve s path with
       | Some p => if access s path false false true then (Os (root s) p, Ok true) else (s, Ok false)
       | None => (s, Ok false)
       end.

Definition MAX_PATH : nat := 1024.
(** absolute text of a position *)
Definition abs_text (p : list str) : str :=
  match p with [] => [slash] | _ => flat_map (fun c => slash :: c) p end.
(** FileUtilities.cpp 95-105: [getcwd] fails, leaving the array uninitialised, when the text with its
    terminating NUL does not fit. *)
Definition GetCurrentDirectory (s : os) : res str :=
  if is_dir_at (root s) (cwd s) then
    if length (abs_text (cwd s)) <? MAX_PATH then Ok (abs_text (cwd s)) else UB
  else Ok [].
