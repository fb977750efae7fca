(** Vocabulary for the statements about how processes start. *)
From Coq Require Import ZArith List Bool.
From Coq Require Import Init.Byte.
From Verif Require Import Params Bytes Res Secp Dto Layout LayoutSpec Node Main.
Import ListNotations.
Open Scope Z_scope.

(** The command line: the program, configuration file, directory of public keys, directory of secrets, T, when to stop
    dropping messages, and what follows. *)
Definition command (a0 conf pubdir secdir t du : bytes) (rest : list bytes) : list bytes := a0 :: conf :: pubdir :: secdir :: t :: du :: rest.

(** The bytes [l] are the decimal digits with values [ds]; the number they spell; [s] is the
    integer z in decimal, of 64 bits, with or without a sign. *)
Definition dec_digits (l : bytes) (ds : list nat) : Prop :=
  Forall2 (fun c d => nth_error [x30; x31; x32; x33; x34; x35; x36; x37; x38; x39] d = Some c) l ds.
Fixpoint dec_number (ds : list nat) : Z :=
  match ds with [] => 0 | d :: r => Z.of_nat d * 10 ^ Z.of_nat (length r) + dec_number r end.
Definition integer64 (s : bytes) (z : Z) : Prop :=
  - 2 ^ 63 <= z < 2 ^ 63 /\ exists l ds, l <> [] /\ dec_digits l ds /\
    ((s = l \/ s = x2b :: l) /\ z = dec_number ds \/ s = x2d :: l /\ z = - dec_number ds).

(** The directory has a file whose name begins with "secret_"; such files that hold the secret s. *)
Definition secret_file (w : world) (dir nm : bytes) : Prop :=
  exists names rest, w_names w dir = Some names /\ In nm names /\ nm = s_secret ++ rest.
Definition has_secret (w : world) (dir : bytes) (s : Z) : Prop :=
  exists nm b, secret_file w dir nm /\ w_file w dir nm = Some b /\ length b = 32%nat /\ s = be2z b mod N.
(** Member i has the secret s of the directory. *)
Definition is_guest (w : world) (dir : bytes) (ms : list member) (i s : Z) : Prop :=
  0 <= i /\ exists m, nth_error ms (Z.to_nat i) = Some m /\ has_secret w dir s /\ pt_mul s KP_nil = Ok (mb_pub m).
(** The host that lists the key file of member i *)
Definition hosted (hosts : list host) (ms : list member) (i : Z) (h : host) : Prop :=
  0 <= i /\ exists m, nth_error ms (Z.to_nat i) = Some m /\ In h hosts /\ In (mb_file m) (h_files h).

(** The key files of all hosts *)
Definition files (hosts : list host) : list bytes := concat (map h_files hosts).

(** How a process is launched: its surroundings and command line, and what its sort and its loop over a map do *)
Record launch := mkLaunch {
  la_w : world; la_srt : list member -> list member; la_mord : list (Z * Z) -> list (Z * Z);
  la_prog : bytes; la_conf : bytes; la_pubdir : bytes; la_secdir : bytes; la_t : bytes; la_du : bytes; la_rest : list bytes }.
Definition starts (l : launch) : res started := main (la_srt l) (la_mord l) (la_w l) (command (la_prog l) (la_conf l) (la_pubdir l) (la_secdir l) (la_t l) (la_du l) (la_rest l)).
(** The process of host [h]: its configuration is compiled from [hosts], its key files are those of [fs], T is written, and of the listed
    keys it has the secrets of those that [h] lists. *)
Definition launched_for (hosts : list host) (fs : bytes -> option bytes) (T : Z) (h : host) (l : launch) : Prop :=
  sorts (la_srt l) /\ (forall m, Permutation.Permutation m (la_mord l m)) /\
  w_conf (la_w l) (la_conf l) = Some (expand_config hosts) /\ (forall f, In f (files hosts) -> w_file (la_w l) (la_pubdir l) f = fs f) /\ integer64 (la_t l) T /\
  (forall f P, In f (files hosts) -> holds fs f P -> (In f (h_files h) <-> exists s, has_secret (la_w l) (la_secdir l) s /\ pt_mul s KP_nil = Ok P)).
(** Two set-ups that do the same: the secrets and shares matter only for guests. *)
Definition same_setup (a b : setup) : Prop :=
  su_guests a = su_guests b /\ su_members a = su_members b /\ su_T a = su_T b /\ su_queues a = su_queues b /\
  forall i, In i (su_guests b) -> su_secret a i = su_secret b i /\ su_long a i = su_long b i.
