(** Fragments of Go's semantics that the model relies on.

    Nothing in this file comes from /repo; it fixes, as definitions, the meaning we give to the Go
    language and standard-library features used by the modelled code. *)
From Coq Require Export NArith ZArith List Bool Lia.
Export ListNotations.
Open Scope N_scope.

(** A computation either returns or panics (index out of range, nil dereference, division by
    zero, close of a closed channel, ...). *)
Inductive go (A : Type) : Type :=
| Ret (a : A)
| Panic.
Arguments Ret {A} a.
Arguments Panic {A}.

Definition bind {A B} (x : go A) (f : A -> go B) : go B :=
  match x with Ret a => f a | Panic => Panic end.
Notation "'do' x <- e ; f" := (bind e (fun x => f))
  (at level 200, x pattern, e at level 100, f at level 200, right associativity).

(** [uint8] and [uint16] are [N] values below 2^8 and 2^16; every arithmetic operation that can
    overflow is followed by one of these conversions. *)
Definition u8 (x : N) : N := x mod 256.
Definition u16 (x : N) : N := x mod 65536.

(** A byte slice or byte array is a list of [N]. *)
Definition byte_ok (x : N) : Prop := x < 256.
Definition word_ok (x : N) : Prop := x < 65536.
Definition bytes_ok (l : list N) : Prop := Forall byte_ok l.
(** The builtin len. *)
Definition len (b : list N) : N := N.of_nat (length b).
(** A Go array of type [n]byte. *)
Definition array_ok (n : N) (l : list N) : Prop := len l = n /\ bytes_ok l.

(** b[i] *)
Definition go_index (b : list N) (i : nat) : go N :=
  match nth_error b i with Some x => Ret x | None => Panic end.

(** b[i:j]. Go bounds a slice expression on a slice by its capacity; we use the length, which is
    never larger, so "no panic here" implies "no panic in Go". *)
Definition slice (b : list N) (i j : N) : go (list N) :=
  if (i <=? j) && (j <=? len b)
  then Ret (firstn (N.to_nat (j - i)) (skipn (N.to_nat i) b)) else Panic.

(** copy(dst, src): the new contents of dst. *)
Definition go_copy (dst src : list N) : list N :=
  firstn (length dst) src ++ skipn (length src) dst.

(** copy(a[0:l], src) on an array a; a[0:l] panics if l > len(a). *)
Definition go_copy_into (a : list N) (l : N) (src : list N) : go (list N) :=
  if l <=? len a
  then Ret (go_copy (firstn (N.to_nat l) a) src ++ skipn (N.to_nat l) a) else Panic.

(** Zero value of an array type [n]byte. *)
Definition zeros (n : N) : list N := repeat 0 (N.to_nat n).

(** The error values of packet/header.go:14-22 and the ones built with fmt.Errorf in
    header.go:86, artpollreply.go:174, packet.go:17,70,72, plus io.EOF / io.ErrUnexpectedEOF. *)
Inductive goerr : Type :=
| errIncorrectHeaderLength
| errInvalidPacket
| errInvalidOpCode
| errInvalidStyleCode
| errIncompatibleVersion (got : N)
| errInvalidPort (got : N)
| errEOF
| errUnexpectedEOF
| errUnimplemented (op : N)            (* packet.go:17 notImplErr *)
| errNotImplementedOpCode (op : N)     (* packet.go:70 *)
| errInvalidOpCodeOf (op : N).         (* packet.go:72 *)

(** A pair (value, error) in which the value is only meaningful when the error is nil. *)
Inductive res (A : Type) : Type :=
| Ok (a : A)
| Err (e : goerr).
Arguments Ok {A} a.
Arguments Err {A} e.

(** Equality of byte arrays (== on Go arrays, bytes.Equal on slices). *)
Fixpoint eqbytes (a b : list N) : bool :=
  match a, b with
  | [], [] => true
  | x :: a', y :: b' => (x =? y) && eqbytes a' b'
  | _, _ => false
  end.
