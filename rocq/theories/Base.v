(** Common vocabulary of the model: runes, slices, outcomes, errors.
    Definitions only. *)
From Coq Require Export ZArith List Bool Lia.
From Coq Require Export ZifyBool ZifyNat.
Export ListNotations.
Global Open Scope Z_scope.

(** Go [rune] = int32; Go [int], [byte] are also modelled in [Z]. *)
Notation rune := Z (only parsing).

(** [len(s)]. *)
Definition len {A} (l : list A) : Z := Z.of_nat (length l).

(** Error values.  diana/diana.go:60-65, krypto431.go:50-69,
    messages.go:19-22, persistence.go:39-47; errors built in place by
    [errors.New]/[fmt.Errorf] get a constructor of their own (the text of the
    error is not modelled). *)
Inductive goerr :=
| ErrNilPointer | ErrOutOfRange | ErrNegativeKeyIndex | ErrKeyIndexOutOfBounds
| ErrCipherTextTooShort | ErrNoKey | ErrKeyNotFound | ErrInvalidCoding
| ErrInvalidControlChar | ErrTableTooShort | ErrUnsupportedTable
| ErrOutOfKeys | ErrInvalidCallSign | ErrNoPersistence | ErrInvalidGroupSize
| ErrKeyTooShort | ErrTooNarrow | ErrKeyColumnsTooShort | ErrNotCipherText
| ErrNoRadiogramProvided | ErrParsingRadiogram
| ErrNoSalt | ErrTooShortSalt | ErrNilPFK | ErrInvalidPFK | ErrPasswordInput
| ErrCopyKeyFailure
(* errors created in place *)
| ErrTableRange            (* cipher.go:201 *)
| ErrBinaryMode            (* cipher.go:267, 322 *)
| ErrPlainTextEmpty        (* cipher.go:495 *)
| ErrKeyIdLength           (* cipher.go:500, messages.go:142 *)
| ErrKeyIdUsed             (* cipher.go:505 *)
| ErrKeyIdCompromised      (* cipher.go:507 *)
| ErrKeyIdMissing          (* cipher.go:513 *)
| ErrCipherWithoutKey      (* cipher.go:520 *)
| ErrNoEligibleKey         (* cipher.go:528, 534 *)
| ErrChunkKeyTooShort      (* cipher.go:635 *)
| ErrOutOfKeyLetters       (* cipher.go:703 *)
| ErrGroupSize             (* functions.go:66 *)
| ErrEntropy               (* crypto/rand failed *)
| ErrFileExists            (* persistence.go:360 *)
| ErrFileMissing           (* persistence.go:424 *)
| ErrIO                    (* any error of the file system *)
| ErrDecrypt               (* encrypted stream / gzip / gob rejects *)
| ErrHex                   (* encoding/hex *)
| ErrPrompt                (* survey.AskOne failed *)
| ErrDTG                   (* dtg.Parse failed *)
| ErrWeakPassword.         (* password validator *)

(** Outcome of a Go call: normal return, error return, run-time panic, or an
    endless loop. *)
Inductive res (A : Type) :=
| Ok (a : A)
| Err (e : goerr)
| Panic
| Diverge.
Arguments Ok {A} _.
Arguments Err {A} _.
Arguments Panic {A}.
Arguments Diverge {A}.

Definition bind {A B} (r : res A) (f : A -> res B) : res B :=
  match r with
  | Ok a => f a
  | Err e => Err e
  | Panic => Panic
  | Diverge => Diverge
  end.
Notation "'let*' x ':=' r 'in' k" := (bind r (fun x => k))
  (at level 200, x pattern, r at level 100, k at level 200, right associativity).

(** [list_update l i x] is [l[i] = x] for an index in range. *)
Fixpoint list_update {A} (l : list A) (i : nat) (x : A) : list A :=
  match l, i with
  | [], _ => []
  | _ :: l', O => x :: l'
  | y :: l', S i' => y :: list_update l' i' x
  end.
