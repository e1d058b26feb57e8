(** What a test on the ITK driver gets that reads from GetInStream (specification for C91); [line_got], [chars_got]: InSpec. *)
From Coq Require Import Floats.SpecFloat.
From Verif Require Import Base Str MeasModel RegModel ItkModel ApiModel FullModel FullItkModel InModel InSpec InItkModel.
Import FullItkModel InModel InSpec InItkModel.

(** [i_supplied a p q]: [q] is the test [p] with its readings replaced by what they give from [a] on *)
Inductive i_supplied : ahead -> yprog -> xprog -> Prop :=
| is_return a z : i_supplied a (YReturn z) (XReturn z)
| is_raise a x : i_supplied a (YRaise x) (XRaise x)
| is_measure a c k k' : (forall r, i_supplied a (k r) (k' r)) -> i_supplied a (YMeasure c k) (XMeasure c k')
| is_image a f n k k' : (forall r, i_supplied a (k r) (k' r)) -> i_supplied a (YImage f n k) (XImage f n k')
| is_compare a m t k k' : (forall r m', i_supplied a (k r m') (k' r m')) -> i_supplied a (YCompare m t k) (XCompare m t k')
| is_generate a x r k k' : (forall n, i_supplied a (k n) (k' n)) -> i_supplied a (YGenerate x r k) (XGenerate x r k')
| is_print a t k k' : i_supplied a k k' -> i_supplied a (YPrint t k) (XPrint t k')
| is_say a t k k' : i_supplied a k k' -> i_supplied a (YSay t k) (XSay t k')
| is_imgtol a t k k' : i_supplied a k k' -> i_supplied a (YImageTolerance t k) (XImageTolerance t k')
| is_tol a t k k' : i_supplied a k k' -> i_supplied a (YSetRelativeTolerance t k) (XSetRelativeTolerance t k')
| is_expected a z k k' : i_supplied a k k' -> i_supplied a (YSetExpectedReturn z k) (XSetExpectedReturn z k')
| is_in a n k k' : i_supplied a k k' -> i_supplied a (YSetInFileName n k) (XSetInFileName n k')
| is_out a n k k' : i_supplied a k k' -> i_supplied a (YSetOutFileName n k) (XSetOutFileName n k')
| is_path a l k k' : i_supplied a k k' -> i_supplied a (YSetInFileSearchPath l k) (XSetInFileSearchPath l k')
| is_prepend a d k k' : i_supplied a k k' -> i_supplied a (YPrependInFileSearchPath d k) (XPrependInFileSearchPath d k')
| is_write a p b k k' : i_supplied a k k' -> i_supplied a (YWriteFile p b k) (XWriteFile p b k')
| is_look a k k' : (forall v, i_supplied a (k v) (k' v)) -> i_supplied a (YLook k) (XLook k')
| is_line a l ef ff a' k q : line_got a l ef ff a' -> i_supplied a' (k l ef ff) q -> i_supplied a (YLine k) q
| is_read a n t ef ff a' k q : chars_got n a t ef ff a' -> i_supplied a' (k t ef ff) q -> i_supplied a (YRead n k) q.
