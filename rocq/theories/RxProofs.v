From Verif Require Import Base BaseLemmas MidiModel RxModel RxSpec.

Lemma rx_run_app r st l1 l2 : rx_run r st (l1 ++ l2)
  = match rx_run r st l1 with Failed f => Failed f | Ran o st' => after o (rx_run r st' l2) end.
Proof.
  revert st; induction l1 as [|b l1 IH]; intros st; cbn [app rx_run].
  - destruct (rx_run r st l2); reflexivity.
  - destruct (rx_byte r st b) as [o1 s1|f]; [|reflexivity]. rewrite IH.
    destruct (rx_run r s1 l1) as [o2 s2|f]; [|reflexivity].
    unfold after. destruct (rx_run r s2 l2); [rewrite app_assoc|]; reflexivity.
Qed.

(** ** Status bytes *)
Lemma nib_hi h c : 0 <= c < 16 -> Z.shiftr (16 * h + c) 4 = h.
Proof. intros H. rewrite Z.shiftr_div_pow2 by lia. change (2 ^ 4) with 16. rewrite Z.mul_comm. rewrite Z.div_add_l by lia. rewrite Z.div_small by lia. lia. Qed.
Lemma nib_lo h c : 0 <= c < 16 -> Z.land (16 * h + c) 0x0F = c.
Proof.
  intros H. change 0x0F with (Z.ones 4). rewrite Z.land_ones by lia. change (2 ^ 4) with 16.
  rewrite Z.add_comm, Z.mul_comm, Z.mod_add by lia. apply Z.mod_small. lia.
Qed.

Lemma sysex_run r body : forall room buf, Forall (fun d => d <> 0xF7) body -> (length body <= room)%nat ->
  rx_run r (Some (read_sysex room buf)) body
  = match room, body with
    | O, _ => Ran [] (Some (read_sysex room buf))
    | _, _ => if Nat.eqb (length body) room then Ran [MSysex (buf ++ body)] None
              else Ran [] (Some (read_sysex (room - length body) (buf ++ body)))
    end.
Proof.
  induction body as [|d body IH]; intros room buf Hb Hl.
  - cbn [rx_run length]. rewrite app_nil_r, Nat.sub_0_r. destruct room; reflexivity.
  - destruct room as [|room]; [cbn in Hl; lia|]. inversion Hb as [|? ? Hd Hb']; subst.
    cbn [rx_run rx_byte read_sysex]. replace (d =? 0xF7) with false by lia.
    destruct room as [|room].
    + assert (body = []) by (destruct body; cbn in Hl; [reflexivity|lia]). subst. reflexivity.
    + cbn [length] in *.
      assert (Q := IH (S room) (buf ++ [d]) Hb' ltac:(lia)).
      cbn [read_sysex] in *. rewrite Q. cbn [Nat.eqb]. rewrite <- !app_assoc. cbn [app Nat.sub].
      destruct (Nat.eqb (length body) (S room)); reflexivity.
Qed.

(** A complete SysEx message of at most 256 bytes. *)
Lemma sysex_message r body : Forall (fun d => d <> 0xF7) body -> (length body <= 256)%nat ->
  rx_run r None (0xF0 :: body ++ [0xF7]) = Ran [MSysex body] None.
Proof.
  intros Hb Hl. cbn [rx_run]. change (rx_byte r None 0xF0) with (Ran [] (Some (read_sysex 256 []))).
  cbv iota. rewrite rx_run_app. rewrite sysex_run by assumption. cbn [app].
  destruct (Nat.eqb_spec (length body) 256) as [E|E].
  - reflexivity.
  - cbv iota. destruct (256 - length body)%nat eqn:Em; [lia|]. reflexivity.
Qed.

(** An unterminated one: exactly 256 bytes are taken. *)
Lemma sysex_oversize r body rest : Forall (fun d => d <> 0xF7) body -> length body = 256%nat ->
  rx_run r None (0xF0 :: body ++ rest) = after [MSysex body] (rx_run r None rest).
Proof.
  intros Hb Hl. cbn [rx_run]. change (rx_byte r None 0xF0) with (Ran [] (Some (read_sysex 256 []))).
  cbv iota. rewrite rx_run_app. rewrite sysex_run by (assumption || lia). rewrite Hl. cbn [app Nat.eqb].
  destruct (rx_run r None rest); reflexivity.
Qed.

Lemma unknown_skip r b : unknown_status b -> rx_byte r None b = Ran [] None.
Proof.
  intros H. unfold rx_byte, read_message. cbv zeta.
  assert (K : forall h c, b = 16 * h + c -> 0 <= c < 16 ->
    (h = 0 \/ h = 1 \/ h = 2 \/ h = 3 \/ h = 4 \/ h = 5 \/ h = 6 \/ h = 7 \/ h = 10 \/ h = 13) ->
    match Z.shiftr b 4 with
    | 0x9 => RdByte (fun pitch => RdByte (fun velocity => RdDone [MNoteOn (Z.land b 15) pitch velocity]))
    | 0x8 => RdByte (fun pitch => RdByte (fun _ => RdDone [MNoteOff (Z.land b 15) pitch]))
    | 0xB => RdByte (fun controller => RdByte (fun value => RdDone [MCc (Z.land b 15) controller value]))
    | 0xE => RdByte (fun lower => RdByte (fun upper => RdDone [MBend (Z.land b 15) (value14 lower upper)]))
    | 0xC => RdByte (fun program => RdDone [MProgram (Z.land b 15) program])
    | 0xF => read_system_message r b
    | _ => RdDone []
    end = RdDone []).
  { intros h c -> Hc Hh. rewrite nib_hi by assumption. decompose [or] Hh; subst; reflexivity. }
  destruct H as [H|[H|[H|H]]].
  - rewrite (K (b / 16) (b mod 16)) by lia. reflexivity.
  - rewrite (K (b / 16) (b mod 16)) by lia. reflexivity.
  - rewrite (K (b / 16) (b mod 16)) by lia. reflexivity.
  - cbn in H. decompose [or] H; subst; try contradiction; reflexivity.
Qed.

Lemma value14_spec v : 0 <= v < 16384 -> value14 (v mod 128) (v / 128) = v.
Proof.
  intros H. unfold value14, u16. rewrite Z.shiftl_mul_pow2 by lia. change (2 ^ 7) with 128.
  rewrite Z.mod_small by lia. lia.
Qed.

Lemma data_unknown d : data_ok d -> unknown_status d.
Proof. unfold data_ok, unknown_status. lia. Qed.

Lemma status_byte h c : 0 <= c < 16 -> 0 <= h < 16 -> h * 16 + c = 16 * h + c.
Proof. lia. Qed.

Definition reset_result (r : reading) (m : msg) : Prop := not_reset m.

(** One complete message, not a reset. *)
Lemma message_run r st m : msg_ok m -> not_reset m -> rx_run r None (encode m) = Ran (meaning st m) None.
Proof.
  intros Hm Hn. unfold not_reset in Hn.
  assert (U : forall b, unknown_status b -> rx_byte r None b = Ran [] None) by (apply unknown_skip).
  destruct m; cbn [msg_ok encode meaning] in *; unfold chan_ok in *.
  - destruct Hm as (Hc & _). cbn [rx_run]. unfold rx_byte at 1, read_message.
    replace (128 + c) with (16 * 8 + c) by lia. rewrite nib_hi, nib_lo by assumption. reflexivity.
  - destruct Hm as (Hc & _). cbn [rx_run]. unfold rx_byte at 1, read_message.
    replace (144 + c) with (16 * 9 + c) by lia. rewrite nib_hi, nib_lo by assumption. reflexivity.
  - destruct Hm as (Hc & Hk & Hp). cbn [rx_run].
    rewrite U by (unfold unknown_status; lia). rewrite U by (apply data_unknown; assumption).
    rewrite U by (apply data_unknown; assumption). reflexivity.
  - destruct Hm as (Hc & _). cbn [rx_run]. unfold rx_byte at 1, read_message.
    replace (176 + c) with (16 * 11 + c) by lia. rewrite nib_hi, nib_lo by assumption. reflexivity.
  - destruct Hm as (Hc & _). cbn [rx_run]. unfold rx_byte at 1, read_message.
    replace (192 + c) with (16 * 12 + c) by lia. rewrite nib_hi, nib_lo by assumption. reflexivity.
  - destruct Hm as (Hc & Hp). cbn [rx_run].
    rewrite U by (unfold unknown_status; lia). rewrite U by (apply data_unknown; assumption). reflexivity.
  - destruct Hm as (Hc & Hv). cbn [rx_run]. unfold rx_byte at 1, read_message.
    replace (224 + c) with (16 * 14 + c) by lia. rewrite nib_hi, nib_lo by assumption.
    cbn [rx_byte app]. rewrite value14_spec by assumption. reflexivity.
  - destruct Hm as (Hb & Hl). apply sysex_message; [|exact Hl].
    eapply Forall_impl; [|exact Hb]. intros d Hd. unfold data_ok in Hd. lia.
  - cbn [rx_run]. rewrite U by (unfold unknown_status; cbn; tauto).
    rewrite U by (apply data_unknown; assumption). reflexivity.
  - reflexivity.
  - cbn [rx_run]. rewrite U by (unfold unknown_status; cbn; tauto).
    rewrite U by (apply data_unknown; assumption). reflexivity.
  - reflexivity.
  - assert (E : b = 0xF8 \/ b = 0xF9 \/ b = 0xFA \/ b = 0xFB \/ b = 0xFC \/ b = 0xFD \/ b = 0xFE) by lia.
    decompose [or] E; subst; reflexivity.
  - congruence.
Qed.

Lemma messages_run r st l : Forall msg_ok l -> Forall not_reset l ->
  rx_run r None (stream l) = Ran (meanings st l) None.
Proof.
  induction l as [|m l IH]; intros Hm Hn; [reflexivity|].
  inversion Hm; inversion Hn; subst. unfold stream, meanings in *. cbn [flat_map].
  rewrite rx_run_app, (message_run r st) by assumption. rewrite IH by assumption. reflexivity.
Qed.

Lemma startup_run l : startup_ok l -> run_startup_sequence (stream l) = Ran (meanings [] l) None.
Proof. intros (H1 & H2). unfold run_startup_sequence. rewrite (messages_run _ []) by assumption. reflexivity. Qed.

Lemma c03 startup l : startup_ok startup -> Forall msg_ok l ->
  receive (stream startup) None (stream l) = Ran (meanings (meanings [] startup) l) None.
Proof.
  intros Hs Hl. unfold receive. induction l as [|m l IH]; [reflexivity|].
  inversion Hl as [|? ? Hm Hl']; subst. unfold stream, meanings in *. cbn [flat_map].
  rewrite rx_run_app. fold (stream startup) in *.
  assert (E : rx_run (reset_action (stream startup)) None (encode m) = Ran (meaning (flat_map (meaning []) startup) m) None).
  { assert (D : m = SystemReset \/ not_reset m) by (unfold not_reset; destruct m; ((left; reflexivity) || (right; discriminate))).
    destruct D as [->|D].
    - cbn [encode rx_run meaning]. unfold rx_byte, read_message, read_system_message, reset_action.
      change (Z.shiftr 255 4) with 15. change (Z.land 255 15) with 15. cbv iota zeta.
      rewrite startup_run by assumption. cbn [app]. rewrite app_nil_r. reflexivity.
    - apply message_run; assumption. }
  rewrite E. rewrite IH by assumption. reflexivity.
Qed.

(** ** C04 *)

(** Everything a reading can still do keeps the limit, and it never asks for
    more than is left of 258 bytes. *)
Inductive good : nat -> reading -> Prop :=
| good_done n ops : Forall short_sysex ops -> good n (RdDone ops)
| good_fault n f : good n (RdFault f)
| good_byte n k : (forall b, good n (k b)) -> good (S n) (RdByte k).

Lemma good_mono n t : good n t -> forall m, (n <= m)%nat -> good m t.
Proof.
  induction 1; intros m Hm; try (constructor; assumption).
  destruct m as [|m]; [lia|]. constructor. intros b. apply H0. lia.
Qed.

Lemma good_sysex room : forall buf, (length buf + room <= 256)%nat -> good room (read_sysex room buf).
Proof.
  induction room as [|room IH]; intros buf H; cbn [read_sysex].
  - constructor. constructor; [cbn; lia|constructor].
  - constructor. intros b. destruct (b =? 0xF7).
    + constructor. constructor; [cbn; lia|constructor].
    + apply IH. rewrite app_length. cbn. lia.
Qed.

Definition reset_good (r : reading) : Prop := match r with RdDone ops => Forall short_sysex ops | RdFault _ => True | RdByte _ => False end.

Lemma good_message r : reset_good r -> good 257 (read_message r).
Proof.
  intros Hr. unfold read_message. constructor. intros b. cbv zeta.
  assert (Sys : good 256 (read_system_message r b)).
  { unfold read_system_message.
    assert (Rg : good 256 r) by (destruct r; cbn in Hr; [constructor; assumption|contradiction|constructor]).
    assert (Two : good 256 (RdByte (fun _ => RdByte (fun _ => RdDone []))))
      by (constructor; intros; constructor; intros; constructor; constructor).
    assert (Dn : good 256 (RdDone [])) by (constructor; constructor).
    assert (Sx : good 256 (read_sysex 256 [])) by (apply good_sysex; cbn; lia).
    destruct (Z.land b 15) as [|p|p]; [exact Sx| |exact Dn].
    do 4 (try (destruct p as [p|p|]; try exact Dn; try exact Two; try exact Rg)). }
  assert (D3 : forall f : Z -> Z -> list mop, (forall x y, Forall short_sysex (f x y)) ->
    good 256 (RdByte (fun x => RdByte (fun y => RdDone (f x y))))).
  { intros f Hf. constructor. intros x. constructor. intros y. constructor. apply Hf. }
  assert (Dn : good 256 (RdDone [])) by (constructor; constructor).
  assert (S1 : forall op, short_sysex op -> Forall short_sysex [op]) by (intros; repeat constructor; assumption).
  destruct (Z.shiftr b 4) as [|p|p]; [exact Dn| |exact Dn].
  do 4 (try (destruct p as [p|p|]; try exact Dn; try exact Sys;
    try (apply (D3 (fun x y => [_ x y])); intros; apply S1; exact I);
    try (apply (D3 (fun x _ => [_ x])); intros; apply S1; exact I);
    try (apply (D3 (fun x y => [MBend _ (value14 x y)])); intros; apply S1; exact I);
    try (constructor; intros; constructor; apply S1; exact I))).
Qed.

Definition rx_good (st : rx) : Prop := match st with None => True | Some t => good 257 t /\ exists k, t = RdByte k end.

Lemma rx_byte_good r st b o st' : reset_good r -> rx_good st -> rx_byte r st b = Ran o st' ->
  Forall short_sysex o /\ rx_good st'.
Proof.
  intros Hr Hg E. unfold rx_byte in E.
  assert (G : good 257 (match st with None => read_message r | Some t => t end)).
  { destruct st as [t|]; [apply Hg|apply good_message; assumption]. }
  destruct (match st with None => read_message r | Some t => t end) as [ops|k|f]; try discriminate.
  - injection E as <- <-. inversion G; subst. split; [assumption|exact I].
  - inversion G as [| |? ? Gk]; subst. specialize (Gk b).
    destruct (k b) as [ops|k'|f] eqn:Ek; try discriminate.
    + injection E as <- <-. inversion Gk; subst. split; [assumption|exact I].
    + injection E as <- <-. split; [constructor|]. split; [|eauto].
      apply (good_mono 256); [assumption|lia].
Qed.

Lemma rx_run_good r l : forall st o st', reset_good r -> rx_good st -> rx_run r st l = Ran o st' ->
  Forall short_sysex o /\ rx_good st'.
Proof.
  induction l as [|b l IH]; intros st o st' Hr Hg E; cbn [rx_run] in E.
  - injection E as <- <-. split; [constructor|assumption].
  - destruct (rx_byte r st b) as [o1 s1|f] eqn:E1; [|discriminate].
    destruct (rx_run r s1 l) as [o2 s2|f] eqn:E2; [|discriminate]. injection E as <- <-.
    destruct (rx_byte_good r st b o1 s1 Hr Hg E1) as (A & B).
    destruct (IH s1 o2 s2 Hr B E2) as (C & D). split; [apply Forall_app; auto|assumption].
Qed.

Lemma reset_action_good seq : reset_good (reset_action seq).
Proof.
  unfold reset_action, run_startup_sequence.
  destruct (rx_run (RdFault F_hang) None seq) as [o st|f] eqn:E; [|exact I].
  destruct (rx_run_good (RdFault F_hang) seq None o st I I E) as (A & _).
  destruct st; [exact I|]. constructor; [exact I|exact A].
Qed.

Lemma c04_limit seq l o st : receive seq None l = Ran o st -> Forall short_sysex o.
Proof. intros E. apply (rx_run_good (reset_action seq) l None o st); [apply reset_action_good|exact I|exact E]. Qed.

Lemma c04_oversize seq body rest : Forall (fun d => d <> 0xF7) body -> length body = 256%nat ->
  receive seq None (0xF0 :: body ++ rest) = after [MSysex body] (receive seq None rest).
Proof. apply sysex_oversize. Qed.

Lemma c04_unknown seq b rest : unknown_status b -> receive seq None (b :: rest) = receive seq None rest.
Proof.
  intros H. unfold receive. cbn [rx_run]. rewrite unknown_skip by assumption.
  destruct (rx_run _ None rest); reflexivity.
Qed.

Lemma c04_any_body seq body rest : Forall (fun d => d <> 0xF7) body -> (length body <= 256)%nat ->
  receive seq None (0xF0 :: body ++ 0xF7 :: rest) = after [MSysex body] (receive seq None rest).
Proof.
  intros Hb Hl. unfold receive.
  change (0xF0 :: body ++ 0xF7 :: rest) with ((0xF0 :: body) ++ [0xF7] ++ rest).
  rewrite app_assoc. change ((0xF0 :: body) ++ [0xF7]) with (0xF0 :: body ++ [0xF7]).
  rewrite rx_run_app, sysex_message by assumption. reflexivity.
Qed.

(** ** The decoder never faults *)
Fixpoint nf (n : nat) (t : reading) : Prop :=
  match t with
  | RdDone _ => True
  | RdFault _ => False
  | RdByte k => match n with O => False | S m => forall b, nf m (k b) end
  end.
Lemma nf_mono n : forall t, nf n t -> forall m, (n <= m)%nat -> nf m t.
Proof.
  induction n as [|n IH]; intros [ops|k|f] H m Hm; destruct m; cbn in *; auto; try contradiction; try lia.
  intros b. apply (IH (k b)); [apply H|lia].
Qed.
Lemma nf_sysex room : forall buf, nf room (read_sysex room buf).
Proof.
  induction room as [|room IH]; intros buf; [exact I|]. cbn [read_sysex nf]. intros b.
  destruct (b =? 0xF7); [destruct room; exact I|apply IH].
Qed.
Lemma nf_message r : nf 256 r -> nf 257 (read_message r).
Proof.
  intros Hr. unfold read_message. cbn [nf]. intros b. cbv zeta.
  assert (Dn : nf 256 (RdDone [])) by exact I.
  assert (Sys : nf 256 (read_system_message r b)).
  { unfold read_system_message. assert (Sx := nf_sysex 256%nat []).
    assert (Two : nf 256 (RdByte (fun _ => RdByte (fun _ => RdDone [])))) by (intros ? ?; exact I).
    destruct (Z.land b 15) as [|p|p]; [exact Sx| |exact Dn].
    do 4 (try (destruct p as [p|p|]; try exact Dn; try exact Two; try exact Hr)). }
  destruct (Z.shiftr b 4) as [|p|p]; [exact Dn| |exact Dn].
  do 4 (try (destruct p as [p|p|]; try exact Dn; try exact Sys; try (intros ? ?; exact I); try (intros ?; exact I))).
Qed.
Lemma rx_total r l : nf 256 r -> forall st, match st with None => True | Some t => nf 257 t end ->
  exists o st', rx_run r st l = Ran o st'.
Proof.
  intros Hr. induction l as [|b l IH]; intros st Hst; [do 2 eexists; reflexivity|]. cbn [rx_run].
  assert (T : nf 257 (match st with None => read_message r | Some t => t end)).
  { destruct st; [exact Hst|apply nf_message; exact Hr]. }
  unfold rx_byte. destruct (match st with None => _ | Some t => t end) as [ops|k|f]; [| |contradiction].
  - destruct (IH None I) as (o2 & s2 & ->). do 2 eexists. reflexivity.
  - specialize (T b). destruct (k b) as [ops|k'|f]; [| |contradiction].
    + destruct (IH None I) as (o2 & s2 & ->). do 2 eexists. reflexivity.
    + destruct (IH (Some (RdByte k'))) as (o2 & s2 & ->); [apply (nf_mono 256 (RdByte k')); [exact T|lia]|].
      do 2 eexists. reflexivity.
Qed.
Lemma receive_total startup l : startup_ok startup -> exists o st, receive (stream startup) None l = Ran o st.
Proof.
  intros Hs. unfold receive. apply rx_total; [|exact I].
  unfold reset_action. rewrite startup_run by assumption. exact I.
Qed.

(** ** C64 *)
Lemma c64_between startup l l' : startup_ok startup -> Forall msg_ok l -> Forall msg_ok l' ->
  filter (fun m => negb (is_real_time m)) l = filter (fun m => negb (is_real_time m)) l' ->
  receive (stream startup) None (stream l) = receive (stream startup) None (stream l').
Proof.
  intros Hs Hl Hl' E. rewrite !c03 by assumption. f_equal.
  assert (F : forall st l, meanings st l = meanings st (filter (fun m => negb (is_real_time m)) l)).
  { intros st k. induction k as [|m k IH]; [reflexivity|]. unfold meanings in *. cbn [flat_map filter].
    rewrite IH. destruct m; reflexivity. }
  rewrite (F _ l), (F _ l'), E. reflexivity.
Qed.

(** A real-time byte inserted in [l] at position [n]. *)
Lemma c64_refuted : ~ (forall l a b rt, Forall msg_ok l -> 0xF8 <= rt <= 0xFE -> stream l = a ++ b ->
  receive [] None (a ++ rt :: b) = receive [] None (stream l)).
Proof.
  intros H. specialize (H [NoteOn 0 60 100] [0x90] [60; 100] 0xF8
    ltac:(repeat constructor; unfold chan_ok, data_ok; lia) ltac:(lia) eq_refl).
  vm_compute in H. discriminate.
Qed.

(** ** Running status *)
Lemma running_status_refuted :
  ~ (forall c k v k' v', chan_ok c -> data_ok k -> data_ok v -> data_ok k' -> data_ok v' ->
     receive [] None ([0x90 + c; k; v] ++ [k'; v'])
     = receive [] None (stream [NoteOn c k v; NoteOn c k' v'])).
Proof.
  intros H. specialize (H 0 60 100 64 100). unfold chan_ok, data_ok in H.
  specialize (H ltac:(lia) ltac:(lia) ltac:(lia) ltac:(lia) ltac:(lia)). vm_compute in H. discriminate.
Qed.

(** ** Startup sequences *)
Lemma startup_reset_hangs a b : startup_ok a -> run_startup_sequence (stream a ++ 0xFF :: b) = Failed F_hang.
Proof.
  intros (H1 & H2). unfold run_startup_sequence. rewrite rx_run_app, (messages_run _ []) by assumption. reflexivity.
Qed.
Lemma startup_truncated_dies a c : startup_ok a -> chan_ok c ->
  run_startup_sequence (stream a ++ [0x90 + c]) = Failed F_die.
Proof.
  intros (H1 & H2) Hc. unfold run_startup_sequence. rewrite rx_run_app, (messages_run _ []) by assumption.
  unfold chan_ok in Hc. cbn [rx_run]. unfold rx_byte, read_message.
  replace (144 + c) with (16 * 9 + c) by lia. rewrite nib_hi by assumption. reflexivity.
Qed.

Lemma c68_skipped seq ds rest : Forall data_ok ds -> receive seq None (ds ++ rest) = receive seq None rest.
Proof.
  induction ds as [|d ds IH]; intros H; [reflexivity|]. inversion H; subst. cbn [app].
  rewrite c04_unknown by (apply data_unknown; assumption). apply IH. assumption.
Qed.

(** ** Examples *)
Lemma c03_example :
  let l := [NoteOn 0 60 100; KeyPressure 3 60 5; Bend 15 8193; SysEx [0; 0x22; 0x77; 3; 1]; SongPosition 1000;
   RealTime 0xF8; TuneRequest; Control 4 7 100; ChannelPressure 2 9; Program 5 127; SystemReset; NoteOff 0 60 64] in
  startup_ok [Program 0 4] /\ Forall msg_ok l /\
  receive (stream [Program 0 4]) None (stream l)
  = Ran [MNoteOn 0 60 100; MBend 15 8193; MSysex [0; 0x22; 0x77; 3; 1]; MCc 4 7 100; MProgram 5 127;
         MReset; MProgram 0 4; MNoteOff 0 60] None.
Proof.
  intros l. split; [|split].
  - split; repeat constructor; unfold chan_ok, data_ok; try lia; discriminate.
  - subst l. repeat apply Forall_cons; try apply Forall_nil; cbn [msg_ok]; unfold chan_ok, data_ok;
      try lia; try exact I. split; [repeat constructor; lia|cbn; lia].
  - vm_compute. reflexivity.
Qed.
Lemma c04_example :
  receive [] None (0xF0 :: repeat 5 256 ++ [0x90; 60; 100]) = Ran [MSysex (repeat 5 256); MNoteOn 0 60 100] None.
Proof. vm_compute. reflexivity. Qed.
Lemma c69_example :
  startup_ok [Control 0 7 100; SysEx [0; 0x22; 0x77; 3; 1]] /\
  run_startup_sequence (stream [Control 0 7 100; SysEx [0; 0x22; 0x77; 3; 1]])
  = Ran [MCc 0 7 100; MSysex [0; 0x22; 0x77; 3; 1]] None.
Proof.
  split; [|vm_compute; reflexivity]. split.
  - repeat apply Forall_cons; try apply Forall_nil; cbn [msg_ok]; unfold chan_ok, data_ok; try lia.
    split; [repeat constructor; lia|cbn; lia].
  - repeat constructor; discriminate.
Qed.
