(** Model of the permissions of the files that are written (persistence.go:380,
    print.go:206, 223, 275, 318). Permission bits are a number; a file that does
    not exist has none. Definitions only. *)
From Verif Require Import Base Model_Types Model_Station Model_Persist Model_Output.

Definition perms := list rune -> option Z.
(** os.OpenFile with O_CREATE|O_TRUNC and permissions [perm]: the system takes
    the bits of the umask away from those of a new file and leaves those of an
    existing file alone. Writing changes no permissions. *)
Definition open_perms (umask perm : Z) (w : perms) (x : effect) : perms :=
  match x with
  | Append _ _ => w
  | Truncate p => fun q =>
      if list_eq_dec Z.eq_dec q p
      then Some (match w p with Some b => b | None => Z.land perm (Z.lnot umask) end)
      else w q
  end.
Definition perms_after (umask perm : Z) (w : perms) (xs : list effect) : perms :=
  fold_left (open_perms umask perm) xs w.

(** persistence.go:380 *)
Definition save_perm : Z := 384. (* 0600 *)
(** print.go:206, 223 *)
Definition text_perm : Z := 384. (* 0600 *)
(** print.go:275, 318: gofpdf.OutputFileAndClose calls os.Create. *)
Definition pdf_perm : Z := 438. (* 0666 *)
(** keys.go:247-260, messages.go:183-196: which of them writes the file *)
Definition output_perm (o : oopts) : Z :=
  if is_word (output_type o) [w_pdf; w_PDF] then pdf_perm else text_perm.
