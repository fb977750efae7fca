(** Model of siggy/src/signode/signode.go (how a process starts), of protocol_start
    (siggy/src/protocol/prot.go:84-131), of the directory helpers of
    siggy/src/util/file.go, of unique (siggy/src/util/prim.go) and of
    siggy/src/keygen/keygen.go.  Files, the clock, time.Parse, the checks of kyber's
    NewDistKeyGenerator and the success of net.Listen are given by a [world]. *)
From Coq Require Import ZArith List Lia Bool.
From Coq Require Import Init.Byte.
From Verif Require Import Params Bytes Res Secp Dto Prot Layout Node Requests.
From Verif Require Net.
Import ListNotations.
Open Scope Z_scope.

(** What a process finds: the JSON value of a configuration file (config.go:12-13), the names in a
    directory in the order of os.ReadDir, the contents of a file in a directory, the decoded contents of a long-term key file
    (file.go:17-22), time.Parse(time.RFC3339, ...), time.Now(), whether NewDistKeyGenerator
    (dkg.go:36-40, dss.go:67-76) returns no error for a secret, the members' keys and T, and whether
    net.Listen returns no error. *)
Record world := mkWorld {
  w_conf : bytes -> option json; w_names : bytes -> option (list bytes); w_file : bytes -> bytes -> option bytes;
  w_gob : bytes -> option (list (Z * dks_dto)); w_time : bytes -> option Z; w_now : Z;
  w_accepts : Z -> list point -> Z -> bool; w_listens : bytes -> bool }.

(** assert_nil of an error that comes with a result *)
Definition given {A} (o : option A) : res A := match o with Some x => Ok x | None => Panic end.

(** strings.HasPrefix *)
Fixpoint has_prefix (s pre : bytes) {struct pre} : bool :=
  match pre, s with
  | [], _ => true
  | c :: pre', d :: s' => byte_eqb c d && has_prefix s' pre'
  | _ :: _, [] => false
  end.
(** file.go:48-53 *)
Definition filter_prefix (names : list bytes) (pre : bytes) : list bytes := filter (fun nm => has_prefix nm pre) names.
(** file.go:30-38 *)
Definition slurp_all (w : world) (dir pre : bytes) : res (list bytes) :=
  names <- given (w_names w dir) ;; slurp_all1 (w_file w dir) (filter_prefix names pre).
(** "secret_" and "public_" *)
Definition s_secret : bytes := [x73; x65; x63; x72; x65; x74; x5f].
Definition s_public : bytes := [x70; x75; x62; x6c; x69; x63; x5f].
(** signode.go:31-32 *)
Definition load_secrets (w : world) (dir : bytes) : res (list Z) := blobs <- slurp_all w dir s_secret ;; unmarshal_secret_keys blobs.

(** strconv.Atoi: a sign or none, then decimal digits only, at least one; the value must fit 64 bits *)
Definition dec_val (c : byte) : option Z := let v := z_of_byte c in if (48 <=? v) && (v <=? 57) then Some (v - 48) else None.
Fixpoint dec_all (acc : Z) (l : bytes) : option Z :=
  match l with [] => Some acc | c :: r => match dec_val c with Some d => dec_all (acc * 10 + d) r | None => None end end.
Definition atoi (s : bytes) : option Z :=
  let '(neg, r) := scan_sign s in
  match r with
  | [] => None
  | _ :: _ => match dec_all 0 r with
              | Some z => let v := if neg : bool then - z else z in if (- 2 ^ 63 <=? v) && (v <? 2 ^ 63) then Some v else None
              | None => None
              end
  end.

(** prim.go:11-16, in an order of no importance *)
Fixpoint unique (xs : list bytes) : list bytes :=
  match xs with [] => [] | x :: r => if existsb (bytes_eqb x) r then unique r else x :: unique r end.

(** A process that has started: what its protocols are set up with, when it stops dropping
    messages, whether it signs (or generates long-term keys), the start time given to run_sigs or
    run_longterm, the addresses it listens at, and for each member the address its messages go to. *)
Record started := mkStarted {
  sd_setup : setup; sd_until : Z; sd_signs : bool; sd_at : Z; sd_listen : list bytes; sd_dial : list (option bytes) }.

(** net_caller.go:68 *)
Definition peer_start_grace : Z := 2000 * ms.

(** prot.go:97-101: the same for both protocols *)
Fixpoint verify_config (w : world) (members : list point) (T : Z) (gs : list (Z * guest)) : res unit :=
  match gs with [] => Ok tt | (_, g) :: r => if w_accepts w (gu_sec g) members T then verify_config w members T r else Panic end.
(** net_listener.go:14-17 *)
Fixpoint listen_all (w : world) (addrs : list bytes) : res unit :=
  match addrs with [] => Ok tt | a :: r => if w_listens w a then listen_all w r else Panic end.

Section Main.
  (** sort.Slice (member.go:21) *)
  Variable srt : list member -> list member.
  (** The order of the loop over member_to_addr (net_caller.go:19) *)
  Variable mord : list (Z * Z) -> list (Z * Z).
  Variable w : world.

  (** prot.go:87-95: the addresses listened at, and those of the outgoing queues.  A process
      without guests makes no queues (prot.go:116).  The maps of runs, observers and outputs and the
      firewall are those of Node.start_node. *)
  Definition protocol_start (L : layout) (gs : list (Z * guest)) (T : Z) : res (list bytes * list (option bytes)) :=
    _ <- verify_config w (map mb_pub (ly_members L)) T gs ;;
    dial <- match gs with [] => Ok [] | _ :: _ => Net.start_net_caller (ly_addrs L) (mord (ly_m2a L)) end ;;
    let listen := unique (map (fun x => gu_addr (snd x)) gs) in
    _ <- listen_all w listen ;; Ok (listen, dial).

  (** signode.go:10-28, up to the call of run_longterm or run_sigs.  A process that generates
      long-term keys has no long-term shares (dss.go:10). *)
  Definition main (args : list bytes) : res started :=
    if (length args <? 6)%nat then Panic else
    let signs := (length args =? 7)%nat in
    a1 <- at_index args 1 ;; a2 <- at_index args 2 ;; j <- given (w_conf w a1) ;; conf <- load_config j ;;
    L <- compute_layout srt (w_file w a2) conf ;;
    a3 <- at_index args 3 ;; secrets <- load_secrets w a3 ;; gs <- compute_guests L secrets ;;
    a4 <- at_index args 4 ;; T <- given (atoi a4) ;;
    a5 <- at_index args 5 ;;
    du <- (if bytes_eqb a5 s_default then Ok (w_now w + (peer_start_grace + 1000 * ms)) else given (w_time w a5)) ;;
    lts <- (if signs : bool then a6 <- at_index args 6 ;; file <- given (w_gob w a6) ;; load_longterms gs file else Ok []) ;;
    x <- protocol_start L gs T ;;
    Ok (mkStarted
      (mkSetup (map fst gs) (map mb_pub (ly_members L)) T (Z.of_nat (length (ly_m2a L)))
               (fun i => match zget gs i with Some g => gu_sec g | None => 0 end) (mget lts))
      du signs (du + (50 * ms + max_drift)) (fst x) (snd x)).
End Main.

(** keygen.go:4-7 with base.go:16-19 and file.go:3-8: the two files that are written, given what
    os.CreateTemp appends to the two names; None: the random stream has not delivered a
    scalar after [fuel] candidates. *)
Section Keygen.
  Variable St : Type.
  Variable xks : St -> bytes -> St * bytes.
  Definition keygen (fuel : nat) (st : St) (r1 r2 : bytes) : option (res ((bytes * bytes) * (bytes * bytes))) :=
    match sc_pick St xks fuel st with
    | None => None
    | Some (s, _) => Some (P <- compute_pub s ;; b1 <- must (sc_marshal s) ;; b2 <- must (pt_marshal P) ;; Ok ((s_secret ++ r1, b1), (s_public ++ r2, b2)))
    end.
End Keygen.
