(** Vocabulary for a key generation in which all members take part as they should. *)
From Coq Require Import ZArith List Bool Permutation.
From Coq Require Import Init.Byte.
From Verif Require Import Params Bytes Res Secp Spec Dss DssSpec Dto DtoSpec Prot ProtSpec TimeSpec DkgProt SignSpec ClusterSpec.
Import ListNotations.
Open Scope Z_scope.

Section Honest.
  Context {G : Type}.
  Variable ky : kyber G.
  (** The number of members; the polynomial behind the key, and its commitments. *)
  Variables (n : Z) (f : list Z) (F : list point).

  Definition everyone : list Z := upto (n - 1).
  Definition others (i : Z) : list Z := filter (fun j => negb (j =? i)) everyone.
  Definition feed {X Y} (h : G -> X -> G * Y) (g : G) (l : list X) : G := fold_left (fun g x => fst (h g x)) l g.

  (** The generators with which the members begin; the deals of a member for another, the responses of a
      member to the deal of another, the commitments of a member that count as right. *)
  Variables (g : Z -> G) (D : Z -> Z -> enc_deal -> Prop) (R : Z -> Z -> resp -> Prop) (C : Z -> commits -> Prop).

  (** Right deals for [i], right responses for [i], right commitments for [i]: each at most once, in any order; and all of them. *)
  Definition deals_for (i : Z) (l : list (Z * enc_deal)) : Prop := NoDup (map fst l) /\ forall j d, In (j, d) l -> In j (others i) /\ D j i d.
  Definition resps_for (i : Z) (l : list ((Z * Z) * resp)) : Prop := NoDup (map fst l) /\ forall a j r, In ((a, j), r) l -> In a (others i) /\ In j (others a) /\ R a j r.
  Definition commits_for (i : Z) (l : list (Z * commits)) : Prop := NoDup (map fst l) /\ forall j x, In (j, x) l -> In j (others i) /\ C j x.
  Definition all_deals (i : Z) (l : list (Z * enc_deal)) : Prop := deals_for i l /\ forall j, In j (others i) -> In j (map fst l).
  Definition all_resps (i : Z) (l : list ((Z * Z) * resp)) : Prop := resps_for i l /\ forall a j, In a (others i) -> In j (others a) -> In (a, j) (map fst l).
  Definition all_commits (i : Z) (l : list (Z * commits)) : Prop := commits_for i l /\ forall j, In j (others i) -> In j (map fst l).

  (** The generator of [i] after it has made its deals and been given the deals [l]; then the responses [r]; then told of the end of
      this phase, and made commitments; then given the commitments [m]. *)
  Definition dealt (i : Z) (l : list (Z * enc_deal)) : G := feed (ky_deal ky) (fst (ky_deals ky (g i))) (map snd l).
  Definition answered (i : Z) (l : list (Z * enc_deal)) (r : list ((Z * Z) * resp)) : G := feed (ky_resp ky) (dealt i l) (map snd r).
  Definition timed_out (i : Z) (l : list (Z * enc_deal)) (r : list ((Z * Z) * resp)) : G := ky_timeout ky (answered i l r).
  Definition committed (i : Z) (l : list (Z * enc_deal)) (r : list ((Z * Z) * resp)) (m : list (Z * commits)) : G :=
    feed (ky_process_commits ky) (fst (ky_commits ky (timed_out i l r))) (map snd m).

  (** What is expected of kyber's generator, when nobody misbehaves: it makes right deals for all others; it answers a right deal with a
      right response; it has no objection to right responses; with all of them it is certified, all members qualify, and it makes
      right commitments; it has no objection to right commitments; with all of them it is finished and has its share of the key.  A response
      tells whose deal it answers. *)
  Record works : Prop := {
    wk_deals : forall i, In i everyone -> exists ds, snd (ky_deals ky (g i)) = Some ds /\ Permutation (map fst ds) (others i) /\ forall j d, In (j, d) ds -> D i j d;
    wk_deal : forall i l j d, In i everyone -> deals_for i (l ++ [(j, d)]) -> exists r, snd (ky_deal ky (dealt i l) d) = Some (Some r) /\ R i j r;
    wk_resp : forall i l r a j x, In i everyone -> all_deals i l -> resps_for i (r ++ [((a, j), x)]) -> snd (ky_resp ky (answered i l r) x) = Some None;
    wk_certified : forall i l r, In i everyone -> all_deals i l -> all_resps i r ->
      ky_certified ky (timed_out i l r) = true /\ Permutation (ky_qual ky (timed_out i l r)) everyone /\ exists x, snd (ky_commits ky (timed_out i l r)) = Some x /\ C i x;
    wk_commits : forall i l r m j x, In i everyone -> all_deals i l -> all_resps i r -> commits_for i (m ++ [(j, x)]) -> snd (ky_process_commits ky (committed i l r m) x) = Some None;
    wk_final : forall i l r m, In i everyone -> all_deals i l -> all_resps i r -> all_commits i m ->
      ky_finished ky (committed i l r m) = true /\ Permutation (ky_qual ky (committed i l r m)) everyone /\ exists s, ky_share ky (committed i l r m) = Some s /\ share_for f F i s;
    wk_deal_form : forall i j d, D i j d -> de_index d = i /\ good (ODeal d);
    wk_resp_form : forall i j r, R i j r -> exists v, rs_inner r = Some v /\ vr_index v = i;
    wk_resp_once : forall i j j' r, R i j r -> R i j' r -> j = j';
    wk_commits_form : forall i x, C i x -> co_index x = i /\ good (OCommits x) }.
End Honest.

Section Together.
  Context {G : Type}.
  Variable p : protocol payload arg (kd G) env output.
  Variable n : Z.
  (** The run of each member: what is fixed in it, its data at the beginning, its history and its trace. *)
  Variables (c : Z -> info) (k0 : Z -> kd G) (h : Z -> list (Z * event payload env)) (tr : Z -> list (obs payload arg output)).

  (** What member [j]'s run sent to [i] for stage [op]. *)
  Definition sent_for (i op j : Z) : list (message payload) := filter (fun m => m_rcpt m =? i) (for_op op (sent (tr j))).
  (** For the stages of a key generation that take messages, every run receives nothing but what the runs of the members sent to it, each message no more often
      than it was sent; and every message sent to it arrives, within [lat] of its sending. *)
  Definition connected (lat : Z) : Prop := forall i op, In i (everyone n) -> 1 <= op <= 7 ->
    among (for_op op (received (untimed (h i)))) (flat_map (sent_for i op) (everyone n)) /\
    forall j t m, In j (everyone n) -> happens p (c j) (k0 j) (h j) t (OSent m) -> m_op m = op -> m_rcpt m = i -> exists t', t' <= t + lat /\ arrives (h i) t' m.
End Together.

Section Members.
  Context {G : Type}.
  Variable p : protocol payload arg (kd G) env output.
  (** Member [i] of [n] takes part in the run [c] with the history [h]: it starts at [s] and its goroutine is never late by more than [d]. *)
  Definition takes_part (n d : Z) (i : Z) (c : info) (k0 : kd G) (h : list (Z * event payload env)) (s : Z) : Prop :=
    i_guest c = i /\ i_members c = n /\ clocked h /\ timely p c (new_run k0) (untimed h) /\ punctual p c d (new_run k0) (untimed h) /\ happens p c k0 h s (OStart s).
  (** Until it ends, the run finds the document [doc] and the long-term share [long]. *)
  Definition finds (c : info) (k0 : kd G) (h : list (Z * event payload env)) (doc : Z) (long : dks) : Prop :=
    forall a e now b r tr, untimed h = a ++ ETick e now :: b -> exec p c (new_run k0) a = Ok (r, tr) -> terminated_in tr = false -> e_doc e = Some doc /\ e_long e = Some long.
End Members.
