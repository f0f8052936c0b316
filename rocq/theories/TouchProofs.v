(** Notes write to the chips for one voice. *)
From Verif Require Import Base BaseLemmas SynthModel SynthSpec SynthProofs SynthClaimsProofs.
From Verif Require Import MidiModel MidiSpec MidiProofs MidiOkProofs MidiEqProofs MidiEffectProofs MidiCallProofs MidiNoteProofs.
From Verif Require Import PsgModel DevModel DevSpec AppModel AppSpec AppProofs AppTraceProofs SoundSpec AppNoteProofs ChipProofs TouchSpec.

Section Msg.
Context (r : rom).
Lemma writes_of (P : vtable -> Z -> Prop) hw mem ops m s0 tr0 s o : history r hw mem ops s0 tr0 -> history r hw mem (ops ++ [AMsg m]) s (tr0 ++ o) ->
  (forall cs, steps (a_midi s0) m (a_midi s) cs -> forall x, In x cs -> (exists n b, x = DPerc n b) \/ exists v n, call_voice x = Some (v, n) /\ P v n) ->
  forall e, In e o -> chip_write e -> exists v n, P v n /\ of_voice v n e.
Proof.
  intros H0 H C e He We. destruct (message_writes r hw mem ops m s0 tr0 s o H0 H) as (_ & _ & cs & Es & _ & _ & Fm & Ps). specialize (C cs Es).
  assert (Y : forall k, of_psg k e -> exists v n, P v n /\ v = VPsg /\ k = n).
  { intros k Hk. destruct (Ps _ k He Hk) as (x & op & Hx & Hop & Hc). destruct (C x Hx) as [(n & b & ->)|(v & n & Ev & Hp)]; [destruct Hop|].
    destruct (voice_psg x _ op Ev Hop) as [Hw Hn]. cbn [fst snd] in Hw, Hn. rewrite Hn in Hc. destruct Hc as [Hc|]; [|discriminate]. injection Hc as <-. exists v, n. auto. }
  destruct e; try contradiction.
  - destruct (Fm _ _ _ He) as (x & si & op & Hx & Hop & By). destruct (C x Hx) as [(n & b & ->)|(v & n & Ev & Hp)]; [destruct Hop|].
    exists v, n. split; [exact Hp|]. cbn [of_voice of_fm]. destruct (voice_synth r si x _ op Ev Hop) as [[Hw Hc]|[Hw Hc]]; cbn [fst snd] in Hw, Hc.
    + left. split; [exact Hw|]. exact (proj1 (fm_by_chan _ _ _ _ _ By Hc)).
    + right. split; [exact Hw|]. destruct Hc as [(oct & f & ->)|(x' & ->)].
      * right. apply (fm_by_special _ _ _ _ _ _ By).
      * left. destruct (fm_by_chan _ _ _ _ 2 By eq_refl) as [Ho Hop2]. split; [exact Ho|apply Hop2; reflexivity].
  - exact (Y _ eq_refl).
  - exact (Y _ eq_refl).
Qed.

Lemma start_voice m c p v d x : In x (start_calls m c p v d) -> (exists n b, x = DPerc n b) \/ call_voice x = Some (d_ops d, d_num d).
Proof.
  unfold start_calls, sync_calls. cbn [prepared d_num d_ops d_midi d_set_pitch d_set_cents d_set_on d_set_midi]. rewrite !in_app_iff.
  intros H. repeat match goal with H : _ \/ _ |- _ => destruct H as [H|H] end;
    repeat match goal with H : In _ (if ?b then _ else _) |- _ => destruct b end; cbn in H; try contradiction; destruct H as [<-|[]]; eauto.
Qed.
(** Note On. *)
Theorem note_on_voice hw mem ops c p v s0 tr0 s o : history r hw mem ops s0 tr0 -> history r hw mem (ops ++ [AMsg (MNoteOn c p v)]) s (tr0 ++ o) -> 1 <= v ->
  (forall e, In e o -> ~ chip_write e) \/
  exists i d, dev_at (a_midi s0) i d /\ (d_midi d = c \/ d_on d = false) /\ forall e, In e o -> of_voice (d_ops d) (d_num d) e.
Proof.
  intros H0 H Hv. destruct (history_played _ _ _ _ _ _ H0) as [(Hs & _) _].
  destruct (history_last _ _ _ _ _ _ _ _ _ H0 H) as ((Hc & Hp & _) & cs & St & _).
  destruct (ok_ch_get _ _ Hs Hc) as (m & Hm & _). assert (St' := St). unfold steps in St'; cbn [midi_step] in St'.
  destruct (midi_note_on_eq c p v (a_midi s0) m Hs Hc Hp ltac:(lia) Hm) as (s1 & o1 & E & R). rewrite E in St'. injection St' as -> ->.
  assert (N : cs = [] \/ exists i d m1 d1, dev_at (a_midi s0) i d /\ chosen (a_midi s0) m c = Some i /\ d_ops d1 = d_ops d /\ d_num d1 = d_num d /\ cs = start_calls m1 c p v d1).
  { destruct R as [_|i d st _ Ci Hd|i d st _ Ci Hd|i d _ Ci Hd]; [left; reflexivity|left; reflexivity|right..].
    - exists i, d, (m_set_vel (m_set_np m st) v), (d_set_glide d 0). auto.
    - exists i, d, m, d. auto. }
  assert (U : forall cs', steps (a_midi s0) (MNoteOn c p v) (a_midi s) cs' -> cs' = cs) by (intros cs' X; unfold steps in X, St; rewrite St in X; injection X as <-; reflexivity).
  destruct N as [->|(i & d & m1 & d1 & Hd & Ci & O1 & O2 & ->)].
  - left. intros e He We. destruct (writes_of (fun _ _ => False) hw mem ops _ s0 tr0 s o H0 H) with (e := e) as (x & y & [] & _); [|exact He|exact We].
    intros cs' X x Hx. rewrite (U _ X) in Hx. destruct Hx.
  - right. exists i, d. split; [exact Hd|]. split; [exact (proj1 (chosen_cases _ _ _ _ _ Ci Hd))|]. intros e He.
    assert (Q : chip_write e -> exists x y, (x = d_ops d /\ y = d_num d) /\ of_voice x y e).
    { apply (writes_of (fun x y => x = d_ops d /\ y = d_num d) hw mem ops _ s0 tr0 s o H0 H) with (e := e); [|exact He].
      intros cs' X x Hx. rewrite (U _ X) in Hx. destruct (start_voice _ _ _ _ _ _ Hx) as [Q|Q]; [left; exact Q|right]. rewrite O1, O2 in Q. eauto. }
    destruct e; try exact Logic.I; destruct (Q Logic.I) as (x & y & [-> ->] & Z); exact Z.
Qed.
(** Note Off. *)
Theorem note_off_voice hw mem ops c p msg s0 tr0 s o : history r hw mem ops s0 tr0 -> lets_go c p msg -> history r hw mem (ops ++ [AMsg msg]) s (tr0 ++ o) ->
  forall e, In e o -> chip_write e -> exists i d, dev_at (a_midi s0) i d /\ d_midi d = c /\ d_on d = true /\ note_of d = p /\ of_voice (d_ops d) (d_num d) e.
Proof.
  intros H0 Rl H e He We. destruct (history_played _ _ _ _ _ _ H0) as [(Hs & _) _].
  destruct (history_last _ _ _ _ _ _ _ _ _ H0 H) as (Ho & _). assert (Hc : is_chan c) by (destruct Rl as [-> | ->]; apply Ho). destruct (ok_ch_get _ _ Hs Hc) as (m & Hm & _).
  destruct (writes_of (fun v n => exists i d, dev_at (a_midi s0) i d /\ d_midi d = c /\ d_on d = true /\ note_of d = p /\ v = d_ops d /\ n = d_num d) hw mem ops _ s0 tr0 s o H0 H)
    with (e := e) as (v & n & (i & d & Hd & D1 & D2 & D3 & -> & ->) & Z); [|exact He|exact We|exists i, d; auto].
  intros cs X x Hx. right. assert (X' : midi_note_off c p (a_midi s0) = WDone (a_midi s) cs) by (destruct Rl as [-> | ->]; exact X). clear X. rename X' into X. destruct (note_off_effect _ _ _ _ _ m Hs Hc Hm X) as (_ & -> & _).
  apply in_flat_map in Hx as (d & Hd & Hx). apply In_zget in Hd as [i Hi].
  assert (Q : serves_note c p d = true /\ call_voice x = Some (d_ops d, d_num d)).
  { unfold note_off_calls, retrig_calls, off_calls in Hx. destruct (falls_back _ _ _ _), (serves_note c p d); try destruct (m_porta m); cbn in Hx; try contradiction; destruct Hx as [<-|[]]; auto. }
  destruct Q as [Q1 Q2]. exists (d_ops d), (d_num d). split; [exact Q2|]. exists i, d. split; [exact Hi|].
  assert (G : 0 <= d_glide d < 256) by (destruct (ok_dev _ _ _ Hs Hi) as [Hdk _]; unfold dev_ok, MidiSpec.seven in Hdk; lia).
  unfold serves_note in Q1. rewrite playing_note in Q1 by exact G. apply andb_prop in Q1 as [A Q1]. apply andb_prop in Q1 as [B C]. repeat split; assumption || lia.
Qed.
(** Voices that sound for other MIDI channels. *)
Theorem note_on_keeps hw mem ops c p v s0 tr0 s o : history r hw mem ops s0 tr0 -> history r hw mem (ops ++ [AMsg (MNoteOn c p v)]) s (tr0 ++ o) -> 1 <= v ->
  forall j d, dev_at (a_midi s0) j d -> d_on d = true -> d_midi d <> c -> forall e, In e o ->
  (0 <= j < 6 -> j <> 2 -> ~ of_fm j e) /\ (6 <= j < 10 -> ~ of_psg (j - 6) e).
Proof.
  intros H0 H Hv j d Hd On Nc e He. destruct (history_played _ _ _ _ _ _ H0) as [(Hs & _) _].
  destruct (note_on_voice hw mem ops c p v s0 tr0 s o H0 H Hv) as [No|(i & x & Hx & Hc & Al)].
  { split; intros; intros X; apply (No e He); destruct e; try contradiction; exact Logic.I. }
  assert (Ni : i <> j).
  { intros ->. unfold dev_at in Hd, Hx. rewrite Hd in Hx. injection Hx as <-. destruct Hc as [Hc|Hc]; congruence. }
  destruct (ok_dev _ _ _ Hs Hx) as [[(S1 & S2 & S3) _] Hi]. specialize (Al e He).
  assert (Sh : i < 6 /\ d_num x = i \/ 6 <= i < 10 /\ d_ops x = VPsg /\ d_num x = i - 6 \/ 10 <= i /\ d_ops x = VSm).
  { destruct (Z_lt_le_dec i 6) as [L|L]; [left; destruct (S1 ltac:(lia)); auto|]. destruct (Z_lt_le_dec i 10) as [L'|L'].
    - right; left. destruct (S2 ltac:(lia)). split; [lia|]. split; [assumption|lia].
    - right; right. destruct (S3 ltac:(lia)). auto. }
  assert (NP : i < 6 -> d_ops x <> VPsg) by (intros L; destruct (S1 ltac:(lia)) as [_ [X|[_ X]]]; congruence).
  assert (NS : i < 6 -> d_ops x <> VSm) by (intros L; destruct (S1 ltac:(lia)) as [_ [X|[_ X]]]; congruence).
  split.
  - intros Hj N2 F. destruct e; try contradiction. cbn [of_voice of_fm] in Al, F. destruct Al as [[V Ow]|[V [[Ow _]|[-> Sp]]]].
    + rewrite Ow in F. injection F as F. destruct Sh as [[L E]|[(_ & E & _)|[_ E]]]; [lia|congruence|congruence].
    + rewrite Ow in F. injection F as F. lia.
    + destruct Sp as [-> | ->]; [rewrite (proj1 (special_no_owner _ _)) in F|rewrite (proj2 (special_no_owner _ _)) in F]; discriminate.
  - intros Hj F. destruct e; try contradiction; cbn [of_voice of_psg] in Al, F; destruct Al as [V E2];
      (destruct Sh as [[L E]|[(_ & _ & E)|[_ E]]]; [exact (NP L V)|lia|congruence]).
Qed.
End Msg.
