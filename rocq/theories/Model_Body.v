(** Model of the body of Message.String (print.go:131-153). Parameters: [head],
    the three lines drawn with blox (print.go:91-129); [wrap], blox.WrapString to
    the width of the message; [unbreak], blox.WithoutLineBreaks. Definitions only. *)
From Verif Require Import Base Model_Unicode Model_Functions Model_Types Model_Print.

Definition w_text : list rune := [61; 84; 69; 88; 84; 61].                 (* =TEXT= *)
Definition w_cipher : list rune := [61; 67; 73; 80; 72; 69; 82; 61].       (* =CIPHER= *)
Definition w_traffic : list rune :=                                        (* =TRAFFIC=EXAMPLE= *)
  [61; 84; 82; 65; 70; 70; 73; 67; 61; 69; 88; 65; 77; 80; 76; 69; 61].
Definition message_string (U : Uni) (dtg_string : Z -> list rune) (wrap unbreak : list rune -> list rune) (lb : list rune)
    (head : msg -> list rune) (gs : Z) (m : msg) : list rune :=
  let wp := wrap (unbreak (go_string (mplain m))) in
  let out := head m ++ (if 0 <? len wp then w_text ++ lb ++ wp ++ lb else []) in
  match traffic U dtg_string wrap lb gs m with
  | Some tr => out ++ w_cipher ++ lb ++ wrap (with_key lb gs m) ++ lb ++ w_traffic ++ lb ++ wrap tr ++ lb
  | None => out
  end.
