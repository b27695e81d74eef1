(** Model of the part of Go's regexp package that messages.go uses: Perl-like
    leftmost-first matching. A text is a list of runes. The matcher tries the
    alternatives in order of preference and takes the first one with which the
    rest of the expression matches; this is the match the Go documentation
    defines ("the one that a backtracking engine would have found"). In the
    expressions used, repetition without an upper limit is only applied to
    single characters. Definitions only. *)
From Verif Require Import Base.

Inductive re :=
| RChr (f : rune -> bool)      (* one character of the class f *)
| RStar (f : rune -> bool)     (* f*, as many as possible first *)
| REmpty
| RCat (a b : re)
| RAlt (a b : re)              (* a preferred *)
| RCap (n : nat) (a : re)      (* capturing group n *)
| RBegin                       (* ^ *)
| REnd.                        (* $ *)

(** Position in the text: is it the beginning, the text to the right, and the
    groups captured so far, last one first. *)
Record rpos := mkPos { p_begin : bool; p_rest : list rune; p_caps : list (nat * list rune) }.

Section Matcher.
Context {A : Type}.
(** Greedy repetition of a character class, [k] is the rest of the expression. *)
Fixpoint star_match (f : rune -> bool) (b : bool) (s : list rune) (caps : list (nat * list rune))
    (k : rpos -> option A) : option A :=
  match s with
  | [] => k (mkPos b s caps)
  | c :: s' =>
      if f c then
        match star_match f false s' caps k with
        | Some x => Some x
        | None => k (mkPos b s caps)
        end
      else k (mkPos b s caps)
  end.

Fixpoint re_match (r : re) (p : rpos) (k : rpos -> option A) : option A :=
  match r with
  | RChr f =>
      match p_rest p with
      | c :: s' => if f c then k (mkPos false s' (p_caps p)) else None
      | [] => None
      end
  | RStar f => star_match f (p_begin p) (p_rest p) (p_caps p) k
  | REmpty => k p
  | RCat a b => re_match a p (fun q => re_match b q k)
  | RAlt a b =>
      match re_match a p k with
      | Some x => Some x
      | None => re_match b p k
      end
  | RCap n a =>
      re_match a p (fun q =>
        k (mkPos (p_begin q) (p_rest q)
             ((n, firstn (length (p_rest p) - length (p_rest q)) (p_rest p)) :: p_caps q)))
  | RBegin => if p_begin p then k p else None
  | REnd => match p_rest p with [] => k p | _ :: _ => None end
  end.
End Matcher.

(** Leftmost match: number of characters before it and the position after it. *)
Fixpoint re_search_from (r : re) (b : bool) (s : list rune) (i : nat) : option (nat * rpos) :=
  match re_match r (mkPos b s []) Some with
  | Some q => Some (i, q)
  | None => match s with [] => None | _ :: s' => re_search_from r false s' (S i) end
  end.
Definition re_search (r : re) (s : list rune) : option (nat * rpos) := re_search_from r true s 0.

(** Text of group [n]; the empty string if it did not take part. *)
Definition group (n : nat) (q : rpos) : list rune :=
  match find (fun c => Nat.eqb (fst c) n) (p_caps q) with
  | Some (_, s) => s
  | None => []
  end.

(** ** Notation of the expressions *)
Fixpoint rseq (l : list re) : re :=
  match l with [] => REmpty | [a] => a | a :: l' => RCat a (rseq l') end.
Fixpoint ralt (l : list re) : re :=
  match l with [] => REmpty | [a] => a | a :: l' => RAlt a (ralt l') end.
Definition ropt (a : re) : re := RAlt a REmpty.          (* a{0,1} *)
Definition rplus (f : rune -> bool) : re := RCat (RChr f) (RStar f).
Fixpoint rrep (n : nat) (f : rune -> bool) : re :=         (* f{n} *)
  match n with O => REmpty | S n' => RCat (RChr f) (rrep n' f) end.
Fixpoint ruptot (n : nat) (f : rune -> bool) : re :=       (* f{0,n} *)
  match n with O => REmpty | S n' => ropt (RCat (RChr f) (ruptot n' f)) end.

(** Character classes under (?i): the letter classes and literals also match
    the runes that fold to them, U+017F to s and U+212A (Kelvin sign) to k. *)
Definition c_digit (c : rune) : bool := (48 <=? c) && (c <=? 57).
Definition c_alpha (c : rune) : bool :=                   (* [A-Z] *)
  ((65 <=? c) && (c <=? 90)) || ((97 <=? c) && (c <=? 122)) || (c =? 383) || (c =? 8490).
Definition c_space (c : rune) : bool :=                   (* \s *)
  (c =? 9) || (c =? 10) || (c =? 12) || (c =? 13) || (c =? 32).
Definition c_any (c : rune) : bool := negb (c =? 10).     (* . *)
Definition c_lit (u c : rune) : bool :=                   (* literal upper-case letter or sign *)
  (c =? u) || ((65 <=? u) && (u <=? 90) && (c =? u + 32))
  || ((u =? 83) && (c =? 383)) || ((u =? 75) && (c =? 8490)).
Definition rlit (w : list rune) : re := rseq (map (fun u => RChr (c_lit u)) w).
