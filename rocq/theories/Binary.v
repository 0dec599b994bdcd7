(** encoding/binary with binary.BigEndian, restricted to what /repo uses: structs whose fields are
    8/16-bit unsigned integers, byte arrays (including arrays of named uint8 types), an embedded
    struct of such fields, and blank fields [_].

    Go standard library behaviour modelled: binary.Write emits the fields in declaration order
    without padding, multi-byte integers high byte first, and zero bytes for blank fields.
    binary.Read first reads exactly the struct's size with io.ReadFull (io.EOF if nothing could be
    read, io.ErrUnexpectedEOF if fewer bytes than needed; in both cases the destination is not
    touched) and then assigns the fields in order, skipping the bytes of blank fields. *)
From Verif Require Export Go.

(** One struct field. [FBytes n] is an array of n bytes, [FBlank n] a blank field of n bytes. *)
Inductive fkind : Type :=
| FU8
| FU16
| FBytes (n : N)
| FBlank (n : N).

Definition fsize (k : fkind) : N :=
  match k with FU8 => 1 | FU16 => 2 | FBytes n => n | FBlank n => n end.

(** binary.Size of a struct. *)
Fixpoint layout_size (l : list fkind) : N :=
  match l with [] => 0 | k :: r => fsize k + layout_size r end.

(** The values of the non-blank fields of a struct, in order. *)
Fixpoint vals (l : list fkind) : Type :=
  match l with
  | [] => unit
  | FU8 :: r => (N * vals r)%type
  | FU16 :: r => (N * vals r)%type
  | FBytes _ :: r => (list N * vals r)%type
  | FBlank _ :: r => vals r
  end.

(** binary.BigEndian.PutUint16 / Uint16. *)
Definition put16 (x : N) : list N := [u8 (N.shiftr x 8); u8 x].
Definition get16 (hi lo : N) : N := N.lor lo (u16 (N.shiftl hi 8)).

(** binary.Write *)
Fixpoint binary_write (l : list fkind) : vals l -> list N :=
  match l return vals l -> list N with
  | [] => fun _ => []
  | FU8 :: r => fun v => fst v :: binary_write r (snd v)
  | FU16 :: r => fun v => put16 (fst v) ++ binary_write r (snd v)
  | FBytes _ :: r => fun v => fst v ++ binary_write r (snd v)
  | FBlank n :: r => fun v => zeros n ++ binary_write r v
  end.

(** The field assignment part of binary.Read, on a buffer that is known to be long enough. *)
Fixpoint binary_decode (l : list fkind) (b : list N) : vals l :=
  match l return vals l with
  | [] => tt
  | FU8 :: r => (nth 0 b 0, binary_decode r (skipn 1 b))
  | FU16 :: r => (get16 (nth 0 b 0) (nth 1 b 0), binary_decode r (skipn 2 b))
  | FBytes n :: r => (firstn (N.to_nat n) b, binary_decode r (skipn (N.to_nat n) b))
  | FBlank n :: r => binary_decode r (skipn (N.to_nat n) b)
  end.

(** binary.Read from a bytes.Reader over b. *)
Definition binary_read (l : list fkind) (b : list N) : res (vals l) :=
  if layout_size l <=? len b then Ok (binary_decode l b)
  else match b with [] => Err errEOF | _ => Err errUnexpectedEOF end.
