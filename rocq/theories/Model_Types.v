(** Value-level model of the data structures (krypto431.go:97-162).
    Definitions only. *)
From Verif Require Import Base.

(** krypto431.go:117-127 Key. Times are integers (nanoseconds); the back
    pointer [instance] is not represented. *)
Record key := mkKey {
  kid : list rune;
  krunes : list rune;
  kkeepers : list (list rune);
  kcreated : Z;
  kexpires : Z;
  kused : bool;
  kcompromised : bool;
  kcomment : list rune
}.

(** krypto431.go:142-153 Message *)
Record msg := mkMsg {
  mid : list rune;
  mrecipients : list (list rune);
  mfrom : list rune;
  mdtg : Z;
  mkeyid : list rune;
  mplain : list rune;
  mbinary : list Z;
  mcipher : list rune;
  mradiogram : list rune
}.

(** krypto431.go:97-112 Krypto431, exported part. *)
Record inst := mkInst {
  i_groupsize : Z;
  i_keylength : Z;
  i_columns : Z;
  i_keycolumns : Z;
  i_keys : list key;
  i_messages : list msg;
  i_callsign : list rune
}.

Definition set_used (k : key) (b : bool) : key :=
  mkKey (kid k) (krunes k) (kkeepers k) (kcreated k) (kexpires k) b (kcompromised k) (kcomment k).
Definition set_keepers (k : key) (ks : list (list rune)) : key :=
  mkKey (kid k) (krunes k) ks (kcreated k) (kexpires k) (kused k) (kcompromised k) (kcomment k).
Definition set_id (k : key) (id : list rune) : key :=
  mkKey id (krunes k) (kkeepers k) (kcreated k) (kexpires k) (kused k) (kcompromised k) (kcomment k).

Definition set_mid (m : msg) (x : list rune) : msg :=
  mkMsg x (mrecipients m) (mfrom m) (mdtg m) (mkeyid m) (mplain m) (mbinary m) (mcipher m) (mradiogram m).
Definition set_mrecipients (m : msg) (x : list (list rune)) : msg :=
  mkMsg (mid m) x (mfrom m) (mdtg m) (mkeyid m) (mplain m) (mbinary m) (mcipher m) (mradiogram m).
Definition set_mkeyid (m : msg) (x : list rune) : msg :=
  mkMsg (mid m) (mrecipients m) (mfrom m) (mdtg m) x (mplain m) (mbinary m) (mcipher m) (mradiogram m).
Definition set_mplain (m : msg) (x : list rune) : msg :=
  mkMsg (mid m) (mrecipients m) (mfrom m) (mdtg m) (mkeyid m) x (mbinary m) (mcipher m) (mradiogram m).
Definition set_mcipher (m : msg) (x : list rune) : msg :=
  mkMsg (mid m) (mrecipients m) (mfrom m) (mdtg m) (mkeyid m) (mplain m) (mbinary m) x (mradiogram m).

Definition set_keys (i : inst) (ks : list key) : inst :=
  mkInst (i_groupsize i) (i_keylength i) (i_columns i) (i_keycolumns i) ks (i_messages i) (i_callsign i).
Definition set_messages (i : inst) (ms : list msg) : inst :=
  mkInst (i_groupsize i) (i_keylength i) (i_columns i) (i_keycolumns i) (i_keys i) ms (i_callsign i).

(** Assignment of [Used] through a [*Key] pointer (an index into Keys). *)
Definition mark (ks : list key) (i : nat) (b : bool) : list key :=
  match nth_error ks i with
  | Some k => list_update ks i (set_used k b)
  | None => ks
  end.
