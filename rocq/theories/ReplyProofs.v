(** What the interface sends back, and only when asked. *)
From Verif Require Import Base BaseLemmas SynthModel SynthSpec MidiModel MidiSpec MidiProofs MidiOkProofs MidiEqProofs MidiEffectProofs MidiCallProofs MidiSysexProofs.
From Verif Require Import PsgModel DevModel DevSpec DevProofs AppModel AppSpec AppProofs LibrarySpec LibraryProofs NetModel WifiModel WifiSpec.

Lemma sent_app a b : sent (a ++ b) = sent a ++ sent b.
Proof. apply flat_map_app. Qed.
Lemma sent_other o : sent o = sent (filter other_event o).
Proof.
  unfold sent. induction o as [|e t IH]; [reflexivity|]. cbn [filter flat_map]. unfold other_event at 1.
  destruct e; cbn [fm_event psg_event orb negb flat_map tx_event Datatypes.app]; rewrite IH; reflexivity.
Qed.
Lemma sent_tx l : sent (map EvTx l) = l.
Proof. unfold sent. induction l as [|b t IH]; [reflexivity|]. cbn. rewrite IH. reflexivity. Qed.

Definition tx_call (c : dcall) : Prop := match c with DTx _ | DDumpPreset _ | DDumpChan _ _ => True | _ => False end.
Lemma silent_call r s c : ~ tx_call c -> sent (other_by r s c) = [].
Proof.
  intros N. destruct c as [v n p ce vel|v n p|v n x|v n x|v n|v n x|v n p ce|n b|op|e|prog p|prog|n prog|prog|mc n|data| | | | | |k mc key v|mc b];
    try (contradiction N; exact I); try destruct v; try reflexivity.
  cbn [other_by]. destruct (zget (rom_pcm r) p) as [[smp|]|]; reflexivity.
Qed.
Lemma silent_calls r (Hr : rom_ok r) det cs : forall s s' o, dev_inv s -> psg_good r (v_psg s) -> Forall dcall_ok cs -> ~ In DFmInit cs ->
  Forall (fun c => ~ tx_call c) cs -> perform_all r det cs s = Done tt s' o -> sent o = [].
Proof.
  induction cs as [|c t IH]; intros s s' o Hi Hg Hc Hf N E; [injection E as _ <-; reflexivity|].
  unfold perform_all in E. cbn [runM] in E. apply bind_inv in E as ([] & s1 & o1 & o2 & E1 & E2 & ->).
  assert (Hf1 : c = DFmInit -> det = false) by (intros ->; exfalso; apply Hf; left; reflexivity).
  assert (Hb : ~ beyond_samples c) by (intros B; rewrite (perform_beyond r Hr det c s B) in E1; discriminate).
  destruct (perform_does r Hr det c s Hi Hg (Forall_inv Hc) Hf1 Hb) as (s1' & o1' & D & F & I1 & G1).
  assert (X := proj1 D). rewrite E1 in X. injection X as <- <-.
  rewrite sent_app, (IH s1 s' o2 I1 G1 (Forall_inv_tail Hc) ltac:(intros X; apply Hf; right; exact X) (Forall_inv_tail N) E2), app_nil_r.
  rewrite sent_other, (perform_others r Hr det c s s1 o1 Hi (Forall_inv Hc) E1 Hf1). apply silent_call. exact (Forall_inv N).
Qed.
Lemma voice_silent c : voice_call c -> ~ tx_call c.
Proof. intros V T. destruct c; contradiction. Qed.

(** Messages that may be answered. *)
Lemma asked m c : menu m c -> tx_call c -> is_sysex_cmd 1 m \/ is_sysex_cmd 13 m \/ is_sysex_cmd 15 m.
Proof.
  intros M T. destruct m as [a p v|a p|a k v|a p|a b|data| | |b]; cbn [menu] in M; try (exfalso; exact (voice_silent c M T)); try contradiction.
  - exfalso. decompose [or and ex] M; subst; try contradiction; destruct c; contradiction.
  - exfalso. decompose [or and ex] M; subst; try contradiction. destruct c; contradiction.
  - decompose [or and ex] M; subst; try contradiction; try (exfalso; destruct c; contradiction); auto.
  - exfalso. decompose [or and ex] M; subst; try contradiction. destruct c; contradiction.
Qed.
Lemma tx_dec c : {tx_call c} + {~ tx_call c}.
Proof. destruct c; (left; exact I) || (right; intros []). Qed.

(** A dump request makes one call at most. *)
Lemma dump_request_calls args s s' cs : fixed_length 2 dump_preset_request args s = WDone s' cs ->
  cs = [] \/ exists n, cs = [DDumpPreset n].
Proof.
  unfold fixed_length. destruct (negb _); [intros [= _ <-]; auto|]. unfold dump_preset_request, wdata, wget.
  destruct (zget args 0) as [t|]; [|discriminate]. destruct (zget args 1) as [p|]; [|discriminate]. rewrite !wbind_ret. destruct (t =? 0); intros H; inversion H; subst; eauto.
Qed.
Lemma dump_chan_calls args s s' cs : fixed_length 2 dump_channel_request args s = WDone s' cs ->
  cs = [] \/ exists c n, cs = [DDumpChan c n].
Proof.
  unfold fixed_length. destruct (negb _); [intros [= _ <-]; auto|]. unfold dump_channel_request. unfold wdata.
  destruct (zget args 0) as [t|]; [|discriminate]. rewrite wbind_ret. destruct (zget args 1) as [p|]; [|discriminate]. rewrite wbind_ret.
  destruct (MIDI_CHANNELS <=? p); [intros [= _ <-]; auto|]. destruct (t =? 0); [|intros [= _ <-]; auto].
  destruct (deviceChannelByMidiChannel (md_dev s) p) as [[i|] o|] eqn:E; [|intros H|discriminate].
  - assert (O : o = []).
    { assert (X : wcalls (fun _ => False) (deviceChannelByMidiChannel (md_dev s) p)) by calls_go. destruct o as [|c o]; [reflexivity|]. exfalso. exact (Forall_inv (X _ _ E)). }
    subst o. change (WDone (Some i) []) with (wret (Some i)). rewrite wbind_ret. unfold wget. destruct (zget (md_dev s) i) as [d|]; [|discriminate]. rewrite wbind_ret. destruct (negb _); intros H; inversion H; subst; eauto.
  - assert (O : o = []).
    { assert (X : wcalls (fun _ => False) (deviceChannelByMidiChannel (md_dev s) p)) by calls_go. destruct o as [|c o]; [reflexivity|]. exfalso. exact (Forall_inv (X _ _ E)). }
    subst o. cbn in H. injection H as _ <-. auto.
Qed.

Lemma message_of op : aop_ok op -> mop_ok (message op).
Proof. destruct op; [intros H; exact H|intros _; exact I]. Qed.
Lemma one_sent r (Hr : rom_ok r) det c s s' o : dev_inv s -> dcall_ok c -> c <> DFmInit -> perform_all r det [c] s = Done tt s' o -> sent o = sent (other_by r s c).
Proof.
  intros Hi Hc Hf E. unfold perform_all in E. cbn [runM] in E. apply bind_inv in E as ([] & s1 & o1 & o2 & E1 & E2 & ->). cbn in E2. injection E2 as _ <-.
  rewrite app_nil_r, sent_other, (perform_others r Hr det c s s1 o1 Hi Hc E1 ltac:(intros X; contradiction)). reflexivity.
Qed.

Lemma pong_length payload : (length (pong payload) <= length payload)%nat.
Proof. destruct payload as [|a [|[|[]|] [|b t]]]; cbn; lia. Qed.

Theorem step_replies r hw mem ops op s0 tr0 s o : history r hw mem ops s0 tr0 -> aop_ok op -> app_step r op s0 = Done tt s o ->
  match op with AMsg m => reply_ok m (sent o) | AFrame => sent o = [] end.
Proof.
  intros H Ho E. assert (Hr := proj1 H). destruct (history_played _ _ _ _ _ _ H) as ((Hs & Hi & Hg) & _).
  destruct op as [m|].
  - destruct (last_calls r hw mem _ _ _ _ _ _ H Ho E) as (cs & d & o2 & S & Hc & Hf & _ & _ & _ & _ & P & Ed).
    specialize (Ed ltac:(discriminate)). subst d. cbn [message] in S. assert (M := calls_menu _ _ _ _ S).
    assert (Eo : o2 = o).
    { cbn [app_step] in E. unfold app_midi in E. unfold steps in S. rewrite S, P in E. injection E as _ <-. reflexivity. }
    subst o2. destruct (Forall_Exists_dec (fun c => ~ tx_call c)) with (l := cs) as [N|N].
    { intros c. destruct (tx_dec c); [right; intros X; exact (X t)|left; assumption]. }
    { left. exact (silent_calls r Hr _ _ _ _ _ Hi Hg Hc Hf N P). }
    apply Exists_exists in N as (c & In1 & T). assert (T1 : tx_call c) by (destruct (tx_dec c); [assumption|contradiction]).
    assert (Mc : menu m c) by (rewrite Forall_forall in M; apply M; exact In1).
    destruct (asked m c Mc T1) as [K|[K|K]]; destruct K as (args & ->); unfold steps in S; right.
    + assert (R := ping_reply (a_midi s0) args). unfold steps in R. rewrite S in R. injection R as _ ->.
      assert (Lp : (length args <= 252)%nat) by (destruct Ho as [_ L]; cbn in L; lia).
      assert (Fa : Forall seven args) by (destruct Ho as [F _]; do 4 apply Forall_inv_tail in F; exact F).
      exists 0x02, (pong args). split.
      { rewrite (one_sent r Hr _ _ _ _ _ Hi (Forall_inv Hc) ltac:(discriminate) P). cbn [other_by]. rewrite sent_tx. reflexivity. }
      split; [apply pong_seven, Fa|]. split; [assert (X := pong_length args); lia|]. left. split; [exists args; reflexivity|reflexivity].
    + change (MSysex ([0; 34; 119; 13] ++ args)) with (own_sysex 13 args) in S. rewrite own_step in S. cbn [sysex_handler] in S.
      destruct (dump_request_calls _ _ _ _ S) as [->|(n & ->)]; [destruct In1|]. assert (Hn : MidiSpec.seven n) by exact (Forall_inv Hc).
      exists 0x0E, (preset_data n (instrument r (a_dev s0) n)).
      destruct (seven_bytes n (instrument r (a_dev s0) n)) as [B L]; [exact Hn|apply instrument_ok; [exact Hr|apply Hi|exact Hn]|].
      split; [|split; [exact B|split; [rewrite L; lia|right; left; split; [exists args; reflexivity|reflexivity]]]].
      rewrite (one_sent r Hr _ _ _ _ _ Hi (Forall_inv Hc) ltac:(discriminate) P). cbn [other_by]. rewrite sent_tx. reflexivity.
    + change (MSysex ([0; 34; 119; 15] ++ args)) with (own_sysex 15 args) in S. rewrite own_step in S. cbn [sysex_handler] in S.
      destruct (dump_chan_calls _ _ _ _ S) as [->|(ch & n & ->)]; [destruct In1|]. assert (Hn := Forall_inv Hc). cbn in Hn. destruct Hn as [Hch Hn].
      exists 0x10, (preset_data ch (channel_preset (a_dev s0) n)).
      destruct (seven_bytes ch (channel_preset (a_dev s0) n)) as [B L]; [unfold seven, is_chan in *; lia|apply channel_preset_ok; [apply Hi|exact Hn]|].
      split; [|split; [exact B|split; [rewrite L; lia|right; right; split; [exists args; reflexivity|reflexivity]]]].
      rewrite (one_sent r Hr _ _ _ _ _ Hi (Forall_inv Hc) ltac:(discriminate) P). cbn [other_by]. rewrite sent_tx. reflexivity.
  - cbn [app_step] in E. apply bind_inv in E as ([] & s1 & o1 & o2 & E1 & E2 & ->). rewrite sent_app.
    unfold app_dev, lift in E1. destruct (ps r PTick (a_dev s0)) as [[] d o1'|] eqn:EP; [|discriminate]. injection E1 as <- <-.
    rewrite sent_other, (filter_other_none _ _ _ _ _ (ps_emits r PTick) EP). cbn [sent flat_map Datatypes.app].
    unfold app_midi in E2. cbn [a_midi a_dev] in E2. destruct (midi_step MTick (a_midi s0)) as [m' cs|] eqn:S; [|discriminate].
    destruct (perform_all r _ cs d) as [[] d2 o2'|] eqn:P; [|discriminate]. injection E2 as _ <-.
    assert (M := calls_menu MTick _ _ _ S). assert (W := midi_step_ok MTick (a_midi s0) Hs I). rewrite S in W. destruct W as [Hc _].
    destruct (does_ps r Hr PTick (a_dev s0) Hg I) as (x & ox & (D & _) & G). rewrite EP in D. injection D as -> _.
    assert (Hi' : dev_inv (v_set_psg (a_dev s0) x)) by exact Hi.
    apply (silent_calls r Hr _ _ _ _ _ Hi' G Hc) in P; [exact P| |].
    + intros X. rewrite Forall_forall in M. exact (M _ X).
    + eapply Forall_impl; [|exact M]. intros c V. apply voice_silent. exact V.
Qed.
