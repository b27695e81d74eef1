(** Specification vocabulary for --output. *)
From Verif Require Import Base Model_Unicode Model_Types Model_Persist Model_Listing Model_Cli Model_Output
  Spec Spec_Persist Spec_Cli.

(** The output is text: --type txt, text or TXT, or no --type and a file name that
    ends in .txt or .TXT. It is a PDF: --type pdf or PDF, or no --type and any
    other file name. *)
Definition named_text (o : oopts) : Prop :=
  exists a, oo_file o = a ++ [46; 116; 120; 116] \/ oo_file o = a ++ [46; 84; 88; 84].
Definition text_wanted (o : oopts) : Prop :=
  oo_type o = Some [116; 120; 116] \/ oo_type o = Some [84; 88; 84] \/ oo_type o = Some [116; 101; 120; 116] \/
  (oo_type o = None /\ named_text o).
Definition pdf_wanted (o : oopts) : Prop :=
  oo_type o = Some [112; 100; 102] \/ oo_type o = Some [80; 68; 70] \/ (oo_type o = None /\ ~ named_text o).

(** The output file can be opened and written. *)
Definition writes (e : oenv) : Prop := o_open e = true /\ o_fail e = None.

(** Of the file [c] only a beginning may be there if writing failed. *)
Definition content (e : oenv) (b : list Z) (c : option (list Z)) : Prop :=
  exists b' rest, c = Some b' /\ b = b' ++ rest /\ (o_fail e = None -> rest = []).

(** What a command with --output did: [did] the work before it succeeded, [some]
    there is something to write, [quiet] success without anything to write, [b]
    the content. *)
Definition wrote (e : oenv) (p : list rune) (f : fs) (did some quiet : Prop) (b : list Z -> Prop) (x : flow) : Prop :=
  same_other_files p f (files x) /\
  (result x = Ok tt <-> did /\ (some /\ writes e \/ ~ some /\ quiet)) /\
  (did /\ some /\ o_open e = true -> exists c, b c /\ content e c (files x p)) /\
  (~ (did /\ some /\ o_open e = true) -> files x p = f p).

(** [x] is [y] but for the file [p], and for an error after the work of [y]. *)
Definition beside (p : list rune) (x y : flow) : Prop :=
  shown x = shown y /\ listed x = listed y /\ same_other_files p (files y) (files x) /\
  (result x = Ok tt -> result y = Ok tt) /\
  (result y <> Ok tt -> result x = result y /\ files x = files y).
