(** What a test gets that reads from GetInStream (specification for C89). *)
From Coq Require Import Floats.SpecFloat.
From Verif Require Import Base Str MeasModel RegModel ApiModel FullModel InModel.

(** Where the reader stands: text ahead; after the end (only the end was seen, or reading has failed) *)
Inductive ahead := Ahead (text : str) | Ended | Failing.
(** [line_got a l eof fail a']: a line read at [a] *)
Inductive line_got : ahead -> option str -> bool -> bool -> ahead -> Prop :=
| lg_line l rest : ~ In nl l -> line_got (Ahead (l ++ nl :: rest)) (Some l) false false (Ahead rest)
| lg_unterminated l : ~ In nl l -> l <> [] -> line_got (Ahead l) (Some l) true false Ended
| lg_end : line_got (Ahead []) (Some []) true true Failing
| lg_after : line_got Ended None true true Failing
| lg_failing : line_got Failing None true true Failing.
Inductive chars_got (n : nat) : ahead -> str -> bool -> bool -> ahead -> Prop :=
| cg_enough t rest : length t = n -> chars_got n (Ahead (t ++ rest)) t false false (Ahead rest)
| cg_short t : length t < n -> chars_got n (Ahead t) t true true Failing
| cg_after : chars_got n Ended [] true true Failing
| cg_failing : chars_got n Failing [] true true Failing.

(** [supplied a p q]: [q] is the test [p] with its readings replaced by what they give from [a] on *)
Inductive supplied : ahead -> rprog -> fprog -> Prop :=
| su_return a z : supplied a (RReturn z) (FReturn z)
| su_raise a x : supplied a (RRaise x) (FRaise x)
| su_measure a c k k' : (forall r, supplied a (k r) (k' r)) -> supplied a (RMeasure c k) (FMeasure c k')
| su_compare a m t k k' : (forall r m', supplied a (k r m') (k' r m')) -> supplied a (RCompare m t k) (FCompare m t k')
| su_print a t k k' : supplied a k k' -> supplied a (RPrint t k) (FPrint t k')
| su_tol a t k k' : supplied a k k' -> supplied a (RSetRelativeTolerance t k) (FSetRelativeTolerance t k')
| su_expected a z k k' : supplied a k k' -> supplied a (RSetExpectedReturn z k) (FSetExpectedReturn z k')
| su_in a n k k' : supplied a k k' -> supplied a (RSetInFileName n k) (FSetInFileName n k')
| su_out a n k k' : supplied a k k' -> supplied a (RSetOutFileName n k) (FSetOutFileName n k')
| su_path a l k k' : supplied a k k' -> supplied a (RSetInFileSearchPath l k) (FSetInFileSearchPath l k')
| su_prepend a d k k' : supplied a k k' -> supplied a (RPrependInFileSearchPath d k) (FPrependInFileSearchPath d k')
| su_write a p b k k' : supplied a k k' -> supplied a (RWriteFile p b k) (FWriteFile p b k')
| su_look a k k' : (forall v, supplied a (k v) (k' v)) -> supplied a (RLook k) (FLook k')
| su_line a l ef ff a' k q : line_got a l ef ff a' -> supplied a' (k l ef ff) q -> supplied a (RLine k) q
| su_read a n t ef ff a' k q : chars_got n a t ef ff a' -> supplied a' (k t ef ff) q -> supplied a (RRead n k) q.

(** the lines got by reading until it fails *)
Inductive lines_got : ahead -> list str -> Prop :=
| ll_more a l ef a' ls : line_got a (Some l) ef false a' -> lines_got a' ls -> lines_got a (l :: ls)
| ll_done a x ef a' : line_got a x ef true a' -> lines_got a [].
(** reading [n] characters, for each [n] of a list *)
Inductive chars_got_each : ahead -> list nat -> list str -> Prop :=
| ce_none a : chars_got_each a [] []
| ce_more a n t ef ff a' ns ts : chars_got n a t ef ff a' -> chars_got_each a' ns ts -> chars_got_each a (n :: ns) (t :: ts).
(** the lines of a text; the last one may lack its end *)
Definition lines_of (text : str) (ls : list str) : Prop :=
  (forall l, In l ls -> ~ In nl l) /\
  (text = concat (map (fun l => l ++ [nl]) ls) \/ exists ls' l, ls = ls' ++ [l] /\ l <> [] /\ text = concat (map (fun l => l ++ [nl]) ls') ++ l).
