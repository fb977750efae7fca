(** Invariants of the firewall. *)
From Coq Require Import ZArith List Lia Bool.
From Verif Require Import Bytes Res Prot KMap Firewall FwSpec.
Import ListNotations.
Open Scope Z_scope.

Lemma put_length {A} (l : list A) : forall n x, length (put l n x) = length l.
Proof. induction l as [|a l IH]; intros [|n] x; cbn; try reflexivity. f_equal. apply IH. Qed.
Lemma put_nth {A} (l : list A) : forall n x m, nth_error (put l n x) m = if Nat.eqb m n then (if Nat.ltb n (length l) then Some x else None) else nth_error l m.
Proof.
  induction l as [|a l IH]; intros [|n] x [|m]; cbn; try reflexivity.
  - destruct (Nat.eqb m n); destruct m; reflexivity.
  - rewrite IH. reflexivity.
Qed.

Section Inv.
  Context {D : Type}.
  Notation message := (message D). Notation fobs := (fobs D). Notation fevent := (fevent D). Notation fw := (fw D).

  (** ** The part of the state that belongs to one run *)
  Record view := mkView { v_drop : bool; v_allow : option allowance; v_st : option Z; v_buf : list message; v_calls : list slot }.
  Definition view_of (k : key) (f : fw) : view :=
    mkView (f_drop f) (kget (f_allow f) k) (kget (f_state f) k) (kslice (f_buf f) k) (kslice (f_calls f) k).
  Definition consts (f : fw) := (f_nprots f, f_guests f, f_until f).
  Definition same_res (a b : res (fw * list fobs)) (k : key) : Prop :=
    match a, b with
    | Ok (f, o), Ok (f', o') => view_of k f = view_of k f' /\ o = o' /\ consts f = consts f'
    | Err, Err | Panic, Panic => True
    | _, _ => False
    end.

  Ltac maps := unfold view_of, put_slot, set_drop, set_allow, set_state, set_buf, set_calls; cbn [f_drop f_allow f_state f_buf f_calls f_nprots f_guests f_until];
    repeat rewrite ?kget_kset, ?kget_kdel, ?kslice_kset, ?kslice_kdel, ?key_eqb_refl.

  (** Events of one run depend on that run's part only ... *)
  Lemma step_about k (f f' : fw) ev : about k ev = true -> view_of k f = view_of k f' -> consts f = consts f' ->
    same_res (fstep f ev) (fstep f' ev) k.
  Proof.
    intros HA HV HC. pose proof HV as HV'. unfold view_of in HV'. injection HV' as E1 E2 E3 E4 E5. injection HC as C1 C2 C3.
    destruct ev as [now m|now|now k' a|now k' n|now k' n]; cbn [about] in HA; cbn [fstep].
    - destruct (key_eqb_spec (key_of m) k) as [<-|]; [|discriminate]. unfold fw_process, fw_message_valid, known; change (@fw_key) with (@key_of). rewrite E1, E3, E4, C1, C2.
      destruct (_ || _); [cbn; unfold consts; rewrite C1, C2, C3; auto|].
      destruct (kget (f_state f') (key_of m)) as [st|] eqn:ES; [|cbn; unfold consts; rewrite C1, C2, C3; auto].
      destruct (st =? fw_buffering).
      + destruct (_ <? _); cbn [fst snd same_res]; unfold consts; rewrite ?C1, ?C2, ?C3; cbn; rewrite ?C1, ?C2, ?C3; repeat split; auto.
        maps; f_equal; congruence.
      + destruct (st =? fw_forwarding); cbn; unfold consts; rewrite C1, C2, C3; auto.
    - rewrite E1, C3. destruct (_ && _); cbn; unfold consts; cbn; rewrite C1, C2, C3; repeat split; auto. maps; f_equal; congruence.
    - destruct (key_eqb_spec k' k) as [->|]; [|discriminate]. unfold fw_set_allowance, known. rewrite C1, C2, E2.
      destruct (negb _); [exact I|]. destruct (kget (f_allow f') k) eqn:EA; cbn; unfold consts; cbn; rewrite C1, C2, C3; repeat split; auto; maps; f_equal; congruence.
    - destruct (key_eqb_spec k' k) as [->|]; [|discriminate]. unfold fw_state_step. rewrite E5, E2.
      destruct (nth_error _ n) as [s|]; [|cbn; unfold consts; rewrite C1, C2, C3; auto].
      destruct (sl_thread s) as [[|a|a|a|]|]; try (cbn; unfold consts; rewrite C1, C2, C3; solve [auto]).
      + cbn [same_res]. unfold consts. cbn. rewrite C1, C2, C3. repeat split; auto. maps; f_equal; congruence.
      + destruct (now <? al_buf a); [cbn; unfold consts; rewrite C1, C2, C3; auto|]. destruct (told _ _); cbn [rbind same_res]; try exact I.
        unfold consts; cbn; rewrite C1, C2, C3. repeat split; auto. maps; f_equal; congruence.
      + destruct (now <? al_start a); [cbn; unfold consts; rewrite C1, C2, C3; auto|]. destruct (told _ _); cbn [rbind same_res]; try exact I.
        unfold consts; cbn [fw_flush fst snd]; cbn; rewrite C1, C2, C3. repeat split; auto; [maps; f_equal; congruence|rewrite E4; reflexivity].
      + destruct (now <? al_stop a); [cbn; unfold consts; rewrite C1, C2, C3; auto|]. destruct (told _ _); cbn [rbind same_res]; try exact I.
        unfold consts; cbn; rewrite C1, C2, C3. repeat split; auto. maps; f_equal; congruence.
    - destruct (key_eqb_spec k' k) as [->|]; [|discriminate]. unfold fw_recv. rewrite E5.
      destruct (nth_error _ n); cbn; unfold consts; cbn; rewrite C1, C2, C3; repeat split; auto. maps; f_equal; congruence.
  Qed.
  (** ... and those of other runs do not touch it. *)
  Lemma step_other k (f f' : fw) ev o : (forall k m, In m (kslice (f_buf f) k) -> key_of m = k) -> about k ev = false -> fstep f ev = Ok (f', o) ->
    view_of k f' = view_of k f /\ filter (about_obs k) o = [] /\ consts f' = consts f.
  Proof.
    intros HB HA HS. destruct ev as [now m|now|now k' a|now k' n|now k' n]; cbn [about] in HA; try discriminate; cbn [fstep] in HS.
    - injection HS as <- <-. unfold fw_process; change (@fw_key) with (@key_of). destruct (_ || _); [cbn; rewrite HA; auto|]. destruct (kget _ _) as [st|]; [|cbn; rewrite HA; auto].
      destruct (st =? _); [destruct (_ <? _); cbn; rewrite HA; repeat split; auto; maps; rewrite HA; reflexivity|].
      destruct (st =? _); cbn; rewrite !HA; auto.
    - unfold fw_set_allowance in HS. destruct (negb _); [discriminate|]. destruct (kget _ _); injection HS as <- <-; cbn; rewrite ?HA; repeat split; auto; maps; rewrite ?HA; reflexivity.
    - unfold fw_state_step in HS. destruct (nth_error _ n) as [s|]; [|injection HS as <- <-; auto].
      destruct (sl_thread s) as [[|a|a|a|]|]; try (injection HS as <- <-; solve [auto]).
      + injection HS as <- <-. repeat split; auto. maps. rewrite ?HA. reflexivity.
      + destruct (now <? _); [injection HS as <- <-; auto|]. destruct (told _ _); cbn [rbind] in HS; try discriminate. injection HS as <- <-.
        cbn. rewrite ?HA. repeat split; auto. maps. rewrite ?HA. reflexivity.
      + destruct (now <? _); [injection HS as <- <-; auto|]. destruct (told _ _); cbn [rbind] in HS; try discriminate. injection HS as <- <-.
        cbn [fw_flush fst snd]. rewrite filter_app. cbn. rewrite ?HA. repeat split; auto; [maps; rewrite ?HA; reflexivity|]. rewrite app_nil_r.
        specialize (HB k'). induction (kslice (f_buf f) k') as [|m l IH]; [reflexivity|]. cbn. rewrite (HB m (or_introl eq_refl)), HA.
        apply IH. intros m' Hm. apply HB. right. exact Hm.
      + destruct (now <? _); [injection HS as <- <-; auto|]. destruct (told _ _); cbn [rbind] in HS; try discriminate. injection HS as <- <-.
        cbn. rewrite ?HA. repeat split; auto. maps. rewrite ?HA. reflexivity.
    - injection HS as <- <-. unfold fw_recv. destruct (nth_error _ _); cbn; repeat split; auto. maps. rewrite ?HA. reflexivity.
  Qed.
  (** Buffered messages are under their own key. *)
  Lemma step_keys (f f' : fw) ev o : (forall k m, In m (kslice (f_buf f) k) -> key_of m = k) -> fstep f ev = Ok (f', o) ->
    (forall k m, In m (kslice (f_buf f') k) -> key_of m = k).
  Proof.
    intros HB HS k m. destruct ev as [now m'|now|now k' a|now k' n|now k' n]; cbn [fstep] in HS.
    - injection HS as <- _. unfold fw_process; change (@fw_key) with (@key_of). destruct (_ || _); [apply HB|]. destruct (kget _ _) as [st|]; [|apply HB].
      destruct (st =? _); [|destruct (st =? _); apply HB]. destruct (_ <? _); [|apply HB]. cbn [fst set_buf f_buf]. rewrite kslice_kset.
      destruct (key_eqb_spec (key_of m') k) as [<-|]; [|apply HB]. intros H. apply in_app_or in H. destruct H as [H|[<-|[]]]; [apply HB, H|reflexivity].
    - destruct (_ && _); injection HS as <- _; apply HB.
    - unfold fw_set_allowance in HS. destruct (negb _); [discriminate|]. destruct (kget _ _); injection HS as <- _; apply HB.
    - unfold fw_state_step in HS. destruct (nth_error _ n) as [s|]; [|injection HS as <- _; apply HB].
      destruct (sl_thread s) as [[|a|a|a|]|]; try (injection HS as <- _; apply HB);
      (destruct (now <? _); [injection HS as <- _; apply HB|]); destruct (told _ _); cbn [rbind] in HS; try discriminate; injection HS as <- _; try apply HB.
      cbn. rewrite kslice_kdel. destruct (key_eqb k' k); [intros []|apply HB].
    - injection HS as <- _. unfold fw_recv. destruct (nth_error _ _); apply HB.
  Qed.
End Inv.
