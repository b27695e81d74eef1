(** Specification vocabulary for PFK, salt, Save and Load. Of the model only
    data types (station, mem, lib, env, fs, effect and how effects change a file
    system) are used. *)
From Verif Require Import Base Model_Unicode Model_Types Model_Station Model_Persist.

Definition hex_digit (c : rune) : Prop := 48 <= c <= 57 \/ 97 <= c <= 102 \/ 65 <= c <= 70.
Definition hex_lower (c : rune) : rune := if (65 <=? c) && (c <=? 90) then c + 32 else c.
Definition byte (x : Z) : Prop := 0 <= x <= 255.

(** Assumptions on the libraries: decoding inverts encoding, a sealed file opens
    with its key and with no other, derived keys have 32 bytes. *)
Definition lib_ok (L : lib) : Prop :=
  (forall i, decode L (encode L i) = Some i) /\
  (forall k n b, unseal L k (seal L k n b) = Some b) /\
  (forall k k' n b, len k = 32 -> len k' = 32 -> k <> k' -> unseal L k' (seal L k n b) = None) /\
  (forall p s, len (kdf L p s) = 32).

(** The name of the file of an instance. *)
Definition file_name (L : lib) (e : env) (s : station) (p : list rune) : Prop :=
  (exists rest d, st_path s = [126; 47] ++ rest /\ e_home e = Some d /\ p = join_path L d rest) \/
  (st_path s <> [] /\ (forall rest, st_path s <> [126; 47] ++ rest) /\ p = st_path s).

(** The key for the file: the one set in the instance, otherwise one derived
    from a password typed in. *)
Definition file_key (L : lib) (e : env) (h : mem) (s : station) (key : list Z) : Prop :=
  (exists p, st_pfk s = Some p /\ key = cell h p) \/
  (st_pfk s = None /\ st_inter s = true /\ e_term e = true /\
   exists pwd q, e_password e = Some pwd /\ st_salt s = Some q /\ 32 <= len (cell h q) /\
     key = kdf L pwd (cell h q)).

(** The user agreed to overwrite, now or by option. *)
Definition confirmed (e : env) (s : station) : Prop :=
  st_inter s = true /\ e_term e = true /\ e_confirm e = Some true.
Definition declined (e : env) (f : fs) (s : station) (p : list rune) : Prop :=
  f p <> None /\ st_over s = false /\ st_inter s = true /\ e_term e = true /\ e_confirm e = Some false.
Definition may_write (e : env) (f : fs) (s : station) (p : list rune) : Prop :=
  f p = None \/ st_over s = true \/ confirmed e s.

(** The complete file of the store [i]. *)
Definition complete_file (L : lib) (key nonce : list Z) (i : inst) : list Z :=
  seal L (firstn 32 key) nonce (encode L i).

Definition no_zero_setting (i : inst) : Prop :=
  i_groupsize i <> 0 /\ i_keylength i <> 0 /\ i_columns i <> 0 /\ i_keycolumns i <> 0.
