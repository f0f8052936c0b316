(** Proofs about the RTP-MIDI parser. *)
From Verif Require Import Base BaseLemmas RtpModel RtpSpec.

Lemma after_app o o' e : after (o ++ o') e = after o (after o' e).
Proof. destruct e; cbn; [rewrite app_assoc|]; reflexivity. Qed.
Lemma after_nil e : after [] e = e.
Proof. destruct e; reflexivity. Qed.

(** ** One round of the loop *)
Lemma walk_more fuel tail (b : Z) rest : (length (b :: rest) < fuel)%nat -> tail <= Z.of_nat (length rest) ->
  exists fuel', (length rest < fuel')%nat /\ fuel = S fuel' /\ Z.of_nat (length (b :: rest)) <=? tail = false.
Proof. intros Hf Ht. destruct fuel as [|f]; [inversion Hf|]. exists f. cbn [length] in *. repeat split; lia. Qed.

Ltac round Hf Ht :=
  let f := fresh "f" in let Hf' := fresh "Hf" in let Et := fresh "Et" in
  destruct (walk_more _ _ _ _ Hf Ht) as (f & Hf' & -> & Et); cbn [walk]; rewrite Et; clear Et.
Lemma weaken {A} tail (l rest : list A) : tail <= Z.of_nat (length rest) -> tail <= Z.of_nat (length (l ++ rest)).
Proof. rewrite app_length. lia. Qed.

Lemma walk_delta_end fuel tail st b rest : (length (b :: rest) < fuel)%nat -> tail <= Z.of_nat (length rest) -> data_byte b ->
  exists fuel', (length rest < fuel')%nat /\ walk fuel tail true st (b :: rest) = walk fuel' tail false st rest.
Proof.
  intros Hf Ht Hb. round Hf Ht. exists f. split; [assumption|]. unfold data_byte in Hb.
  replace (b <? 128) with true by lia. reflexivity.
Qed.

Lemma walk_status fuel tail w st b rest : (length (b :: rest) < fuel)%nat -> tail <= Z.of_nat (length rest) ->
  128 <= b -> b <> 0xF0 -> b <> 0xF7 -> b <> 0xFF ->
  exists fuel', (length rest < fuel')%nat /\ walk fuel tail w st (b :: rest) = walk fuel' tail w b rest.
Proof.
  intros Hf Ht Hb H1 H2 H3. round Hf Ht. exists f. split; [assumption|].
  replace (b <? 128) with false by lia. rewrite andb_false_r. unfold SYSEX_START, SYSEX_END, RESET.
  replace (b =? 240) with false by lia. replace (b =? 247) with false by lia. replace (b =? 255) with false by lia.
  replace (128 <=? b) with true by lia. reflexivity.
Qed.

(** Delta times are walked over; a continuation byte lands in the status. *)
Lemma walk_more_deltas more : forall fuel tail st rest, (length (more ++ rest) < fuel)%nat -> tail <= Z.of_nat (length rest) ->
  Forall (fun b => 128 <= b < 256) more -> quiet_delta more ->
  exists fuel' st', (length rest < fuel')%nat /\ (more = [] -> st' = st) /\
    walk fuel tail true st (more ++ rest) = walk fuel' tail true st' rest.
Proof.
  induction more as [|b more IH]; intros fuel tail st rest Hf Ht Hm Hq; cbn [app] in *.
  - exists fuel, st. repeat split; assumption.
  - inversion Hm as [|? ? Hb Hm']; subst. inversion Hq as [|? ? Hb' Hq']; subst.
    destruct (walk_status fuel tail true st b (more ++ rest)) as (f & Hf' & ->); try (rewrite ?app_length in *; cbn in *; lia); try apply Hb; try apply Hb'.
    destruct (IH f tail b rest Hf' Ht Hm' Hq') as (f' & st' & Hf'' & _ & ->). exists f', st'. repeat split; [assumption|discriminate].
Qed.

Lemma walk_delta d : forall fuel tail st rest, (length (d ++ rest) < fuel)%nat -> tail <= Z.of_nat (length rest) ->
  delta_ok d -> quiet_delta d ->
  exists fuel' st', (length rest < fuel')%nat /\ ((length d <= 1)%nat -> st' = st) /\
    walk fuel tail true st (d ++ rest) = walk fuel' tail false st' rest.
Proof.
  intros fuel tail st rest Hf Ht (more & b & -> & _ & Hm & Hb) Hq. rewrite <- app_assoc in *. cbn [app] in *.
  apply Forall_app in Hq. destruct Hq as [Hq _].
  destruct (walk_more_deltas more fuel tail st (b :: rest) Hf) as (f & st' & Hf' & Hs & ->); [cbn; lia|assumption|assumption|].
  destruct (walk_delta_end f tail st' b rest Hf' Ht Hb) as (f' & Hf'' & ->). exists f', st'. repeat split; [assumption|].
  rewrite app_length. cbn. intros L. apply Hs. destruct more; [reflexivity|cbn in L; lia].
Qed.

(** ** Commands *)
Lemma until_end_data ds : forall rest, Forall data_byte ds -> until_end (ds ++ 0xF7 :: rest) = Some (ds, 0xF7 :: rest).
Proof.
  induction ds as [|d ds IH]; intros rest H; cbn [app until_end]; [reflexivity|].
  inversion H as [|? ? Hd Hds]; subst. unfold data_byte in Hd. unfold SYSEX_END, SYSEX_START.
  replace (d =? 247) with false by lia. replace (d =? 240) with false by lia. cbn [orb]. rewrite IH by assumption. reflexivity.
Qed.

Lemma walk_sysex fuel tail st (ds rest : list Z) : (length (0xF0%Z :: ds ++ 0xF7%Z :: rest) < fuel)%nat -> tail <= Z.of_nat (length rest) -> Forall data_byte ds ->
  exists fuel', (length rest < fuel')%nat /\
    walk fuel tail false st (0xF0 :: ds ++ 0xF7 :: rest) = after (0xF0 :: ds ++ [0xF7]) (walk fuel' tail true st rest).
Proof.
  intros Hf Ht Hd. assert (Ht' : tail <= Z.of_nat (length (ds ++ 0xF7 :: rest))) by (rewrite app_length; cbn; lia).
  round Hf Ht'. exists f. split; [rewrite app_length in *; cbn in *; lia|].
  cbn [andb]. change (0xF0 =? SYSEX_START) with true. cbn iota. unfold process_sysex. rewrite until_end_data by assumption. reflexivity.
Qed.

Lemma walk_reset fuel tail st (rest : list Z) : (length (0xFF%Z :: rest) < fuel)%nat -> tail <= Z.of_nat (length rest) ->
  exists fuel', (length rest < fuel')%nat /\ walk fuel tail false st (0xFF :: rest) = after [0xFF] (walk fuel' tail true st rest).
Proof. intros Hf Ht. round Hf Ht. exists f. split; [assumption|reflexivity]. Qed.

Lemma count_one st : status_ok st -> data_count st = 1%nat -> bytes_to_emit st =? 1 = true.
Proof.
  unfold data_count, bytes_to_emit, status_ok. intros H1 H2.
  assert (H3 : (0xC0 <= st < 0xE0) \/ st = 0xF1 \/ st = 0xF3).
  { destruct (st <? 0xC0) eqn:E1; [discriminate|]. destruct (st <? 0xE0) eqn:E2; [lia|]. destruct (st <? 0xF0) eqn:E3; [discriminate|].
    destruct ((st =? 0xF1) || (st =? 0xF3)) eqn:E4; [lia|]. destruct (st =? 0xF2); discriminate. }
  destruct H3 as [H3|[->| ->]]; try reflexivity.
  assert (E : st / 16 = 0xC \/ st / 16 = 0xD).
  { pose proof (Z.div_le_lower_bound st 16 12). pose proof (Z.div_lt_upper_bound st 16 14). lia. }
  destruct E as [-> | ->]; reflexivity.
Qed.
Lemma count_two st : status_ok st -> data_count st = 2%nat -> bytes_to_emit st =? 1 = false.
Proof.
  unfold data_count, bytes_to_emit, status_ok. intros H1 H2.
  assert (H3 : (0x80 <= st < 0xC0) \/ (0xE0 <= st < 0xF0) \/ st = 0xF2).
  { destruct (st <? 0xC0) eqn:E1; [lia|]. destruct (st <? 0xE0) eqn:E2; [discriminate|]. destruct (st <? 0xF0) eqn:E3; [lia|].
    destruct ((st =? 0xF1) || (st =? 0xF3)) eqn:E4; [discriminate|]. destruct (st =? 0xF2) eqn:E5; [lia|discriminate]. }
  assert (E : st / 16 <> 0xC /\ st / 16 <> 0xD).
  { split; intros E; pose proof (Z.div_mod st 16 ltac:(lia)); pose proof (Z.mod_pos_bound st 16 ltac:(lia)); lia. }
  replace (st / 16 =? 0xC) with false by lia. replace (st / 16 =? 0xD) with false by lia.
  replace (st =? 0xF1) with false by lia. replace (st =? 0xF3) with false by lia. reflexivity.
Qed.

Lemma count_le st : (data_count st <= 2)%nat.
Proof. unfold data_count. repeat match goal with |- context [if ?b then _ else _] => destruct b end; lia. Qed.

(** Data bytes behind a status in hand. *)
Lemma walk_data fuel tail st (ds rest : list Z) : (length (ds ++ rest) < fuel)%nat -> tail <= Z.of_nat (length rest) ->
  status_ok st -> length ds = data_count st -> ds <> [] -> Forall data_byte ds ->
  exists fuel', (length rest < fuel')%nat /\ walk fuel tail false st (ds ++ rest) = after (st :: ds) (walk fuel' tail true st rest).
Proof.
  intros Hf Ht Hst Hn He Hd. destruct ds as [|d ds]; [contradiction|]. cbn [app] in *.
  inversion Hd as [|? ? Hd1 Hd2]; subst. unfold data_byte in Hd1.
  round Hf (weaken tail ds rest Ht). cbn [andb]. unfold SYSEX_START, SYSEX_END, RESET.
  replace (d =? 240) with false by lia. replace (d =? 247) with false by lia. replace (d =? 255) with false by lia.
  replace (128 <=? d) with false by lia. unfold emit_midi_event.
  destruct (bytes_to_emit st =? 1) eqn:E.
  - destruct ds as [|d2 ds]; [exists f; split; [assumption|reflexivity]|].
    destruct ds as [|d3 ds].
    + rewrite count_two in E by (assumption || (cbn in Hn; congruence)). discriminate.
    + exfalso. cbn in Hn. pose proof (count_le st). lia.
  - destruct ds as [|d2 ds].
    + rewrite count_one in E by (assumption || (cbn in Hn; congruence)). discriminate.
    + destruct ds as [|d3 ds].
      * cbn [app]. exists f. split; [cbn in *; lia|reflexivity].
      * exfalso. cbn in Hn. pose proof (count_le st). lia.
Qed.

(** A whole command, from behind its delta time. [run]: the running status. *)
Lemma walk_command run it : forall fuel tail st rest,
  let w := (if it_omit it then tl (midi_bytes (it_cmd it)) else midi_bytes (it_cmd it)) in
  (length (w ++ rest) < fuel)%nat -> tail <= Z.of_nat (length rest) ->
  command_ok (it_cmd it) -> carried (it_cmd it) -> omit_ok run it -> (forall x, run = Some x -> x < 0xF0) ->
  ((it_omit it = true \/ is_reset (it_cmd it)) -> forall x, run = Some x -> st = x) ->
  exists fuel' st', (length rest < fuel')%nat /\ (forall x, running run (it_cmd it) = Some x -> st' = x) /\
    walk fuel tail false st (w ++ rest) = after (midi_bytes (it_cmd it)) (walk fuel' tail true st' rest).
Proof.
  intros fuel tail st rest. destruct it as [d omit c]. cbn [it_omit it_cmd]. intros Hf Ht Hc Hk Ho Hl Hs.
  destruct c as [s ds|ds]; cbn [midi_bytes tl command_ok carried] in *.
  - destruct Hc as (Hs1 & Hn & Hd). destruct Hk as [->|Hk].
    + change (data_count 0xFF) with 0%nat in Hn. destruct ds; [|discriminate]. destruct omit.
      * destruct (Ho eq_refl) as (x & y & E & E'). cbn [it_cmd] in E. injection E as <- <-. specialize (Hl _ E'). lia.
      * cbn [app]. destruct (walk_reset fuel tail st rest Hf Ht) as (f & Hf' & ->). exists f, st. repeat split; [assumption|].
        intros x Hx. apply Hs; [right; reflexivity|exact Hx].
    + assert (Hne : ds <> []) by (intros ->; cbn in Hn; congruence).
      assert (Hfin : forall x, running run (Cmd s ds) = Some x -> s = x).
      { intros x. cbn [running]. destruct (s <? 0xF0) eqn:E1; [congruence|]. destruct (s <? 0xF8) eqn:E2; [discriminate|].
        exfalso. apply Hk. unfold data_count. rewrite E1. replace (s <? 0xC0) with false by lia. replace (s <? 0xE0) with false by lia.
        replace (s =? 0xF1) with false by lia. replace (s =? 0xF3) with false by lia. replace (s =? 0xF2) with false by lia. reflexivity. }
      destruct omit.
      * destruct (Ho eq_refl) as (x & y & E & E'). cbn [it_cmd] in E. injection E as <- <-.
        rewrite (Hs (or_introl eq_refl) s E') in *. destruct (walk_data fuel tail s ds rest Hf Ht Hs1 Hn Hne Hd) as (f & Hf' & ->).
        exists f, s. repeat split; assumption.
      * cbn [app]. destruct (walk_status fuel tail false st s (ds ++ rest) Hf (weaken tail ds rest Ht)) as (f & Hf' & ->);
          try (unfold status_ok in Hs1; lia); try (intros ->; apply Hk; reflexivity).
        destruct (walk_data f tail s ds rest Hf' Ht Hs1 Hn Hne Hd) as (f' & Hf'' & ->). exists f', s. repeat split; assumption.
  - destruct omit; [destruct (Ho eq_refl) as (x & y & E & _); discriminate|].
    cbn [app] in *. rewrite <- app_assoc in *. cbn [app] in *.
    destruct (walk_sysex fuel tail st ds rest Hf Ht Hc) as (f & Hf' & ->). exists f, st. repeat split; [assumption|discriminate].
Qed.

Lemma running_low run c : (forall x, run = Some x -> x < 0xF0) -> forall x, running run c = Some x -> x < 0xF0.
Proof.
  intros H x. destruct c as [st ds|ds]; cbn [running]; [|discriminate].
  destruct (st <? 0xF0) eqn:E; [intros [= <-]; lia|]. destruct (st <? 0xF8); [discriminate|apply H].
Qed.

(** ** The list *)
Lemma walk_rest l : forall run fuel tail st rest,
  (length (flat_map item_bytes l ++ rest) < fuel)%nat -> tail <= Z.of_nat (length rest) ->
  rest_ok run l -> Forall item_handled l -> (forall x, run = Some x -> x < 0xF0) -> (forall x, run = Some x -> st = x) ->
  exists fuel' st', (length rest < fuel')%nat /\
    walk fuel tail true st (flat_map item_bytes l ++ rest) =
    after (flat_map (fun it => midi_bytes (it_cmd it)) l) (walk fuel' tail true st' rest).
Proof.
  induction l as [|it l IH]; intros run fuel tail st rest Hf Ht Hr Hh Hl Hs; cbn [flat_map app] in *.
  - exists fuel, st. rewrite after_nil. split; [assumption|reflexivity].
  - destruct Hr as (Hd & Hc & Ho & Hr). inversion Hh as [|? ? [Hq [Hm Hk]] Hh']; subst.
    rewrite <- app_assoc in *. change (item_bytes it) with (it_delta it ++ (if it_omit it then tl (midi_bytes (it_cmd it)) else midi_bytes (it_cmd it))) in *. rewrite <- app_assoc in *.
    set (w := if it_omit it then tl (midi_bytes (it_cmd it)) else midi_bytes (it_cmd it)) in *.
    set (more := flat_map item_bytes l ++ rest) in *.
    assert (Ht1 : tail <= Z.of_nat (length more)) by (apply weaken; assumption).
    destruct (walk_delta (it_delta it) fuel tail st (w ++ more) Hf (weaken _ w _ Ht1) Hd Hq) as (f & st1 & Hf1 & Hs1 & ->).
    destruct (walk_command run it f tail st1 more Hf1 Ht1 Hc Hk Ho Hl) as (f2 & st2 & Hf2 & Hs2 & E).
    { intros Ho' x Hx. rewrite Hs1; [apply Hs; exact Hx|].
      destruct (le_gt_dec (length (it_delta it)) 1) as [?|G]; [assumption|]. destruct (Hm G) as [M1 M2]. destruct Ho' as [O|O]; [congruence|contradiction]. }
    fold w in E. rewrite E. clear E.
    destruct (IH _ f2 tail st2 rest Hf2 Ht Hr Hh' (running_low _ _ Hl) Hs2) as (f3 & st3 & Hf3 & E3).
    fold more in E3. rewrite E3. exists f3, st3. split; [assumption|]. rewrite after_app. reflexivity.
Qed.

Lemma walk_stop fuel tail w st rest : (length rest < fuel)%nat -> Z.of_nat (length rest) <= tail -> walk fuel tail w st rest = Emitted [].
Proof. intros Hf Ht. destruct fuel as [|f]; [inversion Hf|]. cbn [walk]. replace (_ <=? tail) with true by lia. reflexivity. Qed.

Lemma walk_list sec journal : section_ok sec -> handled sec ->
  walk (S (length (list_bytes sec ++ journal))) (Z.of_nat (length journal)) false 0 (list_bytes sec ++ journal) = Emitted (stream sec).
Proof.
  intros [_ Hok] (Hz & _ & Hh & Ht). unfold list_bytes, stream. destruct (sec_items sec) as [|it l].
  - rewrite Hok. cbn [flat_map app]. apply walk_stop; lia.
  - rewrite Hz in Hok. destruct Hok as (Hd & Hc & Ho & Hr & Htr). inversion Hh as [|? ? [Hq [Hm Hk]] Hh']; subst.
    cbn [flat_map]. rewrite <- !app_assoc. change (item_bytes it) with (it_delta it ++ (if it_omit it then tl (midi_bytes (it_cmd it)) else midi_bytes (it_cmd it))). rewrite Hd. cbn [app].
    set (w := if it_omit it then tl (midi_bytes (it_cmd it)) else midi_bytes (it_cmd it)) in *.
    set (more := flat_map item_bytes l ++ sec_trailing sec ++ journal).
    assert (Tj : Z.of_nat (length journal) <= Z.of_nat (length (sec_trailing sec ++ journal))) by (apply weaken; lia).
    assert (Tm : Z.of_nat (length journal) <= Z.of_nat (length more)) by (apply weaken; assumption).
    destruct (walk_command None it (S (length (w ++ more))) (Z.of_nat (length journal)) 0 more) as (f2 & st2 & Hf2 & Hs2 & E); try assumption; try discriminate; [fold w; lia|].
    fold w in E. rewrite E. clear E.
    destruct (walk_rest l _ f2 (Z.of_nat (length journal)) st2 (sec_trailing sec ++ journal) Hf2 Tj Hr Hh' (running_low None _ (fun x (E : None = Some x) => ltac:(discriminate E))) Hs2) as (f3 & st3 & Hf3 & E3). fold more in E3. rewrite E3. clear E3.
    assert (E : walk f3 (Z.of_nat (length journal)) true st3 (sec_trailing sec ++ journal) = Emitted []).
    { destruct Htr as [Htr|Htr].
      - rewrite Htr in *. cbn [app] in *. apply walk_stop; lia.
      - destruct (walk_delta _ _ _ st3 journal Hf3 (Z.le_refl _) Htr Ht) as (f4 & st4 & Hf4 & _ & ->). apply walk_stop; lia. }
    rewrite E. cbn [after]. rewrite app_nil_r. reflexivity.
Qed.

(** ** Whole packets *)
Lemma flags_range sec : 0 <= flags sec <= 112 /\ flags sec mod 16 = 0.
Proof. unfold flags. destruct (sec_j sec), (sec_z sec), (sec_p sec); cbn; lia. Qed.
Lemma list_length_pos sec : 0 <= list_length sec.
Proof. unfold list_length. lia. Qed.

Lemma zget_app_r {A} (l l' : list A) i : 0 <= i -> zget (l ++ l') (Z.of_nat (length l) + i) = zget l' i.
Proof.
  intros H. unfold zget. replace (_ <? 0) with false by lia. replace (i <? 0) with false by lia.
  rewrite nth_error_app2 by lia. f_equal. lia.
Qed.
Lemma zget_app_l {A} (l l' : list A) i : i < Z.of_nat (length l) -> zget (l ++ l') i = zget l i.
Proof. intros H. unfold zget. destruct (i <? 0) eqn:E; [reflexivity|]. rewrite nth_error_app1 by lia. reflexivity. Qed.

(** [left]: whatever the receive buffer holds behind the packet. *)
Theorem decodes hdr sec journal left : packet_ok hdr sec journal -> handled sec ->
  process_rtp_midi_packet (rtp_packet hdr sec journal ++ left) (Z.of_nat (length (rtp_packet hdr sec journal))) = Parsed PKT_OK (stream sec) (Some (seq_of hdr)).
Proof.
  intros (Hl & Hh & Hs & Hj & Hlen) H. pose proof (walk_list sec (journal ++ left) Hs H) as W.
  destruct H as (Hz & H255 & _ & _). destruct Hs as [Hmax _]. pose proof (flags_range sec) as [F1 F2]. pose proof (list_length_pos sec) as P.
  unfold process_rtp_midi_packet. unfold rtp_packet in *. rewrite <- !app_assoc in *. rewrite !app_length in *. unfold section_bytes in *.
  assert (G : forall i, 0 <= i < 12 -> forall x, zget (hdr ++ x) i = Some (nth (Z.to_nat i) hdr 0)).
  { intros i Hi x. rewrite zget_app_l by lia. unfold zget. replace (i <? 0) with false by lia. apply nth_error_nth'. lia. }
  rewrite !G by lia. change (Z.to_nat 2) with 2%nat. change (Z.to_nat 3) with 3%nat.
  assert (G2 : forall x i, 0 <= i -> zget (hdr ++ x) (12 + i) = zget x i).
  { intros x i Hi. rewrite <- (zget_app_r hdr x i Hi), Hl. reflexivity. }
  pose proof (G2 ((if sec_long sec then [128 + flags sec + list_length sec / 256; list_length sec mod 256] else [flags sec + list_length sec]) ++ list_bytes sec) 0 ltac:(lia)) as G3.
  pose proof (fun x => G2 x 0 ltac:(lia)) as G12. pose proof (fun x => G2 x 1 ltac:(lia)) as G13. cbn [Z.add] in G12, G13.
  rewrite G12. unfold RTP_HEADER_LEN, sequence_number, seq_of. rewrite (Z.mul_comm 256 (nth 2 hdr 0)).
  unfold list_length in *. set (n := Z.of_nat (length (list_bytes sec))) in *.
  destruct (sec_long sec) eqn:EL.
  - cbn [app length] in *. replace (_ <? 12 + 1) with false by lia.
    change (zget (?a :: ?b) 0) with (Some a). cbn iota.
    assert (E : n / 256 = 0) by (apply Z.div_small; lia). rewrite E, Z.add_0_r in *.
    assert (EL' : is_long_header (128 + flags sec) = true).
    { unfold is_long_header. pose proof (Z.div_le_lower_bound (128 + flags sec) 128 1). replace (_ =? 0) with false by lia. reflexivity. }
    rewrite EL', G13. change (zget (?a :: ?b :: ?c) 1) with (Some b). cbn iota.
    assert (EM : twelve_bit_midi_length (128 + flags sec) (n mod 256) = n).
    { unfold twelve_bit_midi_length, u16. rewrite (Z.mod_small n 256) by lia.
      assert (E4 : (128 + flags sec) * 4096 = (8 + flags sec / 16) * 65536) by (pose proof (Z.div_mod (flags sec) 16); lia).
      rewrite E4, Z.add_comm, Z_mod_plus_full. apply Z.mod_small. lia. }
    rewrite EM. replace (_ <? 12 + 2 + n) with false by lia.
    change (Z.to_nat (12 + 2)) with 14%nat. replace 14%nat with (length hdr + 2)%nat by lia.
    rewrite skipn_app. replace (skipn _ hdr) with (@nil Z) by (symmetry; apply skipn_all2; lia).
    replace (length hdr + 2 - length hdr)%nat with 2%nat by lia. cbn [app skipn].
    match goal with |- context [walk _ ?t _ _ _] => replace t with (Z.of_nat (length (journal ++ left))) end.
    2: { rewrite app_length. lia. }
    rewrite <- !app_length in W. rewrite W. reflexivity.
  - cbn [app length] in *. replace (_ <? 12 + 1) with false by lia.
    change (zget (?a :: ?b) 0) with (Some a). cbn iota.
    assert (EL' : is_long_header (flags sec + n) = false).
    { unfold is_long_header. rewrite Z.div_small by lia. reflexivity. }
    rewrite EL'.
    assert (EM : four_bit_midi_length (flags sec + n) = n).
    { unfold four_bit_midi_length. rewrite <- Zplus_mod_idemp_l, F2. apply Z.mod_small. lia. }
    rewrite EM. replace (_ <? 12 + 1 + n) with false by lia.
    change (Z.to_nat (12 + 1)) with 13%nat. replace 13%nat with (length hdr + 1)%nat by lia.
    rewrite skipn_app. replace (skipn _ hdr) with (@nil Z) by (symmetry; apply skipn_all2; lia).
    replace (length hdr + 1 - length hdr)%nat with 1%nat by lia. cbn [app skipn].
    match goal with |- context [walk _ ?t _ _ _] => replace t with (Z.of_nat (length (journal ++ left))) end.
    2: { rewrite app_length. lia. }
    rewrite <- !app_length in W. rewrite W. reflexivity.
Qed.

(** ** C56 *)
Definition own_header (seq ts : Z) : list Z :=
  [0x80; 0x61; u8 (seq / 256); u8 seq; u8 (ts / 2 ^ 24); u8 (ts / 2 ^ 16); u8 (ts / 2 ^ 8); u8 ts;
   u8 (MEGADRIVE_SSRC / 2 ^ 24); u8 (MEGADRIVE_SSRC / 2 ^ 16); u8 (MEGADRIVE_SSRC / 2 ^ 8); u8 MEGADRIVE_SSRC].
Lemma own_header_ok seq ts : 0 <= seq < 65536 -> Forall byte (own_header seq ts) /\ seq_of (own_header seq ts) = seq.
Proof.
  intros H. split.
  - unfold own_header, byte. repeat (apply Forall_cons; [try apply Z.mod_pos_bound; lia|]). apply Forall_nil.
  - unfold seq_of. cbn [nth own_header]. unfold u8. rewrite (Z.mod_small (seq / 256)) by (split; [apply Z.div_pos; lia|apply Z.div_lt_upper_bound; lia]).
    pose proof (Z.div_mod seq 256). lia.
Qed.

Lemma pack_eq seq ts m : Z.of_nat (length m) <= 4095 ->
  pack_rtp_midi_packet seq ts m (256 + Z.of_nat (length m)) =
  Some (own_header seq ts ++ (if 15 <? Z.of_nat (length m) then [Z.lor 128 (u8 (Z.of_nat (length m) / 256)); u8 (Z.of_nat (length m))] else [Z.of_nat (length m) mod 16]) ++ m, u16 (seq + 1)).
Proof.
  intros H. unfold pack_rtp_midi_packet. replace (0xFFF <? _) with false by lia.
  match goal with |- (if ?b then _ else _) = _ => replace b with false end; [reflexivity|].
  unfold u16, RTP_HEADER_LEN. destruct (15 <? _); rewrite Z.mod_small by lia; lia.
Qed.

Lemma lor_128 k : 0 <= k < 16 -> Z.lor 128 k = 128 + k.
Proof.
  intros H. assert (E : In k (zseq 0 16)) by (apply in_zseq; lia). revert k E H. cbn [zseq Z.add].
  intros k E _. repeat destruct E as [<-|E]; try reflexivity. contradiction.
Qed.

Theorem round_trip seq ts c : 0 <= seq < 65536 -> command_ok c -> carried c -> Z.of_nat (length (midi_bytes c)) <= 255 ->
  exists pkt, pack_rtp_midi_packet seq ts (midi_bytes c) (256 + Z.of_nat (length (midi_bytes c))) = Some (pkt, u16 (seq + 1)) /\
    process_rtp_midi_packet pkt (Z.of_nat (length pkt)) = Parsed PKT_OK (midi_bytes c) (Some seq).
Proof.
  intros Hseq Hc Hk Hl. set (n := Z.of_nat (length (midi_bytes c))) in *.
  set (sec := Section_of (15 <? n) false false false [Item [] false c] []).
  assert (B : list_bytes sec = midi_bytes c) by (unfold list_bytes, item_bytes; cbn; rewrite !app_nil_r; reflexivity).
  assert (L : list_length sec = n) by (unfold list_length; rewrite B; reflexivity).
  exists (rtp_packet (own_header seq ts) sec []). split.
  - rewrite pack_eq by (unfold n in Hl; lia). fold n. unfold rtp_packet, section_bytes. rewrite L, B, app_nil_r. cbn [sec_long sec].
    assert (F : flags sec = 0) by reflexivity. rewrite F. do 3 f_equal.
    destruct (15 <? n) eqn:E; cbn [app]; f_equal.
    + unfold u8. rewrite (Z.div_small n 256) by (unfold n in *; lia). reflexivity.
    + rewrite Z.mod_small by (unfold n in *; lia). reflexivity.
  - destruct (own_header_ok seq ts Hseq) as [H1 H2].
    assert (P : packet_ok (own_header seq ts) sec []).
    { split; [reflexivity|]. split; [assumption|]. split; [split|split; [apply Forall_nil|]].
      - rewrite L. cbn [sec_long sec]. destruct (15 <? n) eqn:E; lia.
      - split; [reflexivity|]. split; [exact Hc|]. split; [intros E; discriminate E|]. split; [exact Logic.I|left; reflexivity].
      - unfold rtp_packet, section_bytes. rewrite B, L. rewrite !app_length. cbn [length own_header sec_long sec]. destruct (15 <? n); cbn [length]; unfold n in Hl; lia. }
    rewrite <- (app_nil_r (rtp_packet _ _ _)) at 1. rewrite (decodes _ _ _ [] P).
    + rewrite H2. unfold stream. cbn. rewrite app_nil_r. reflexivity.
    + unfold handled. rewrite L. repeat split; try lia; [|apply Forall_nil].
      apply Forall_cons; [|apply Forall_nil]. split; [apply Forall_nil|split; [cbn; intros; lia|exact Hk]].
Qed.

(** Messages of 256 bytes or more are packed but rejected by the parser. *)
Theorem long_rejected seq ts m : Forall byte m -> 256 <= Z.of_nat (length m) <= 4095 ->
  exists pkt, pack_rtp_midi_packet seq ts m (256 + Z.of_nat (length m)) = Some (pkt, u16 (seq + 1)) /\
    process_rtp_midi_packet pkt (Z.of_nat (length pkt)) = Parsed PKT_RTP_LENGTH_MISMATCH [] None.
Proof.
  intros Hm Hl. rewrite pack_eq by lia. set (n := Z.of_nat (length m)) in *. replace (15 <? n) with true by lia.
  eexists. split; [reflexivity|]. unfold process_rtp_midi_packet.
  assert (K : 1 <= n / 256 < 16).
  { split; [apply Z.div_le_lower_bound; lia|apply Z.div_lt_upper_bound; lia]. }
  assert (Em : n = 256 * (n / 256) + n mod 256) by (apply Z.div_mod; lia). pose proof (Z.mod_pos_bound n 256 ltac:(lia)) as Hb.
  rewrite lor_128 by (unfold u8; rewrite Z.mod_small by lia; lia).
  replace (_ <? RTP_HEADER_LEN + 1) with false by (cbn [app length own_header]; unfold RTP_HEADER_LEN; lia).
  unfold own_header. cbn [app].
  change (zget (?a :: ?b :: ?c :: ?l) 2) with (Some c). change (zget (?a :: ?b :: ?c :: ?d :: ?l) 3) with (Some d).
  match goal with |- context [zget ?l 12] => change (zget l 12) with (Some (128 + u8 (n / 256))); change (zget l 13) with (Some (u8 n)) end.
  cbn iota. assert (U : u8 (n / 256) = n / 256) by (apply Z.mod_small; lia). rewrite U.
  replace (is_long_header (128 + n / 256)) with true.
  2: { unfold is_long_header. pose proof (Z.div_le_lower_bound (128 + n / 256) 128 1). replace (_ =? 0) with false by lia. reflexivity. }
  cbn iota. assert (E : twelve_bit_midi_length (128 + n / 256) (u8 n) = n / 256 * 4096 + n mod 256).
  { unfold twelve_bit_midi_length, u16, u8. replace ((128 + n / 256) * 4096 + n mod 256) with (n / 256 * 4096 + n mod 256 + 8 * 65536) by lia.
    rewrite Z_mod_plus_full. apply Z.mod_small. lia. }
  rewrite E. match goal with |- (if ?b then _ else _) = _ => replace b with true end; [reflexivity|].
  symmetry. cbn [length]. fold n. unfold RTP_HEADER_LEN. lia.
Qed.

(** A command without data other than System Reset is swallowed. *)
Theorem realtime_lost seq ts st : 0 <= seq < 65536 -> status_ok st -> st <> 0xFF -> data_count st = 0%nat ->
  exists pkt, pack_rtp_midi_packet seq ts [st] (256 + 1) = Some (pkt, u16 (seq + 1)) /\
    process_rtp_midi_packet pkt (Z.of_nat (length pkt)) = Parsed PKT_OK [] (Some seq).
Proof.
  intros Hseq Hst Hne Hc. change (256 + 1) with (256 + Z.of_nat (length [st])). rewrite (pack_eq seq ts [st]) by (cbn; lia). eexists. split; [reflexivity|].
  assert (R : 128 <= st /\ st <> 0xF0 /\ st <> 0xF7).
  { unfold status_ok in Hst. repeat split; try lia; intros ->; cbv in Hc; discriminate. }
  cbn [length]. change (15 <? Z.of_nat 1) with false. cbn iota. change (Z.of_nat 1 mod 16) with 1. unfold own_header. cbn [app].
  unfold process_rtp_midi_packet. cbn [length].
  match goal with |- context [zget ?l 2] => change (zget l 2) with (Some (u8 (seq / 256))); change (zget l 3) with (Some (u8 seq)); change (zget l 12) with (Some 1); change (zget l 13) with (Some st) end.
  cbn iota. change (is_long_header 1) with false. change (four_bit_midi_length 1) with 1. cbn iota.
  change (Z.to_nat (RTP_HEADER_LEN + 1)) with 13%nat. cbn [skipn length].
  change (Z.of_nat 14 - (RTP_HEADER_LEN + 1 + 1)) with 0.
  change (Z.of_nat 14 <? RTP_HEADER_LEN + 1) with false. change (Z.of_nat 14 <? RTP_HEADER_LEN + 1 + 1) with false. cbn iota.
  destruct (walk_status 2 0 false 0 st []) as (f & Hf & ->); try apply R; try assumption; [cbn; lia|cbn; lia|].
  rewrite walk_stop by (cbn in *; lia). do 2 f_equal. destruct (own_header_ok seq ts Hseq) as [_ E]. unfold seq_of in E. cbn [nth own_header] in E. unfold sequence_number. lia.
Qed.

(** ** C57 *)
Lemma until_end_shorter c : forall o c', until_end c = Some (o, c') -> (length c' <= length c)%nat.
Proof.
  induction c as [|b c IH]; cbn; intros o c' H; [discriminate|].
  destruct (_ || _); [injection H as <- <-; reflexivity|]. destruct (until_end c) as [[o1 c1]|]; [|discriminate].
  injection H as <- <-. specialize (IH _ _ eq_refl). lia.
Qed.
Lemma after_hang o e : after o e = EFault F_hang -> e = EFault F_hang.
Proof. destruct e; cbn; congruence. Qed.

Lemma tl_shorter {A} (c : list A) : (length (tl c) <= length c)%nat.
Proof. destruct c; cbn; lia. Qed.

(** The loop always ends. *)
Lemma walk_ends fuel : forall tail w st c, (length c < fuel)%nat -> walk fuel tail w st c <> EFault F_hang.
Proof.
  induction fuel as [|f IH]; intros tail w st c Hf; [lia|]. cbn [walk].
  destruct (_ <=? tail); [discriminate|]. destruct c as [|b c]; [discriminate|]. cbn [length] in Hf.
  destruct (w && (b <? 128)); [apply IH; lia|]. destruct (b =? SYSEX_START).
  { unfold process_sysex. destruct (until_end c) as [[o c']|] eqn:E; [|discriminate]. intros A. apply after_hang in A.
    apply until_end_shorter in E. revert A. apply IH. pose proof (tl_shorter c'). lia. }
  destruct (b =? SYSEX_END).
  { unfold process_middle_sysex. destruct (until_end c) as [[o c']|] eqn:E; [|discriminate].
    apply until_end_shorter in E. apply IH. pose proof (tl_shorter c'). lia. }
  destruct (b =? RESET); [intros A; apply after_hang in A; revert A; apply IH; lia|].
  destruct (128 <=? b); [apply IH; lia|]. unfold emit_midi_event.
  destruct (bytes_to_emit st =? 1); [intros A; apply after_hang in A; revert A; apply IH; cbn; lia|].
  destruct c as [|b2 c]; [discriminate|]. intros A. apply after_hang in A. revert A. apply IH. cbn in *. lia.
Qed.

Theorem parse_ends buffer len : process_rtp_midi_packet buffer len <> PFault F_hang.
Proof.
  unfold process_rtp_midi_packet. destruct (len <? _); [discriminate|].
  destruct (zget buffer 2), (zget buffer 3), (zget buffer 12); try discriminate.
  destruct (is_long_header z1); [destruct (zget buffer 13); [|discriminate]|];
    (destruct (len <? _); [discriminate|]; match goal with |- context [walk ?f ?t ?w ?s ?c] => pose proof (walk_ends f t w s c ltac:(lia)); destruct (walk f t w s c); congruence end).
Qed.

(** Without SysEx bytes at most one byte behind the list is read. *)
Definition plain (b : Z) : Prop := b <> 0xF0 /\ b <> 0xF7.
Lemma walk_plain fuel : forall tail w st c x, (length (c ++ [x]) < fuel)%nat -> 1 <= tail -> Forall plain c ->
  exists o, walk fuel tail w st (c ++ [x]) = Emitted o.
Proof.
  induction fuel as [|f IH]; intros tail w st c x Hf Ht Hp; [lia|]. cbn [walk].
  destruct (_ <=? tail) eqn:E; [eauto|]. destruct c as [|b c]; [cbn in E; lia|]. cbn [app] in *. cbn [length] in *.
  inversion Hp as [|? ? [H1 H2] Hp']; subst. unfold SYSEX_START, SYSEX_END.
  replace (b =? 240) with false by lia. replace (b =? 247) with false by lia.
  assert (R : forall w' st', exists o, walk f tail w' st' (c ++ [x]) = Emitted o) by (intros; apply IH; [lia|assumption|assumption]).
  destruct (w && (b <? 128)); [apply R|]. destruct (b =? RESET); [destruct (R true st) as [o ->]; cbn; eauto|].
  destruct (128 <=? b); [apply R|]. unfold emit_midi_event. destruct (bytes_to_emit st =? 1); [cbn [tl]; destruct (R true st) as [o ->]; cbn; eauto|].
  destruct c as [|b2 c]; cbn [app] in *.
  - cbn [tl]. destruct f as [|f']; [cbn in Hf; lia|]. cbn [walk length]. replace (Z.of_nat 0 <=? tail) with true by lia. cbn. eauto.
  - cbn [tl]. inversion Hp' as [|? ? _ Hp'']; subst. destruct (IH tail true st c x) as [o ->]; [cbn in *; lia|assumption|assumption|]. cbn. eauto.
Qed.

Lemma forall_skipn {A} (P : A -> Prop) k h (l : list A) : (k <= h)%nat -> Forall P (skipn k l) -> Forall P (skipn h l).
Proof.
  intros L H. induction L as [|h L IH]; [assumption|].
  assert (E : forall n (x : list A), skipn (S n) x = tl (skipn n x)) by (clear; induction n as [|n IH]; intros [|a x]; try reflexivity; cbn [skipn] in *; apply (IH x) || (destruct n; reflexivity)).
  rewrite E. inversion IH; cbn; [apply Forall_nil|assumption].
Qed.
Theorem plain_overrun pkt x : Forall byte pkt -> Forall plain (skipn 12 pkt) ->
  exists code o seq, process_rtp_midi_packet (pkt ++ [x]) (Z.of_nat (length pkt)) = Parsed code o seq.
Proof.
  intros Hb Hp. unfold process_rtp_midi_packet, RTP_HEADER_LEN. destruct (_ <? 12 + 1) eqn:E; [eauto|].
  assert (L : (13 <= length pkt)%nat) by lia.
  assert (G : forall i, 0 <= i <= 13 -> exists b, zget (pkt ++ [x]) i = Some b).
  { intros i Hi. apply zget_in_range. rewrite app_length. cbn. lia. }
  destruct (G 2 ltac:(lia)) as [b2 ->]. destruct (G 3 ltac:(lia)) as [b3 ->]. destruct (G 12 ltac:(lia)) as [c0 ->].
  assert (W : forall n h fuel, (12 <= h)%nat -> (S (length (skipn h (pkt ++ [x]))) = fuel)%nat -> Z.of_nat (length pkt) <? Z.of_nat h + n = false ->
    exists o, walk fuel (Z.of_nat (length (pkt ++ [x])) - (Z.of_nat h + n)) false 0 (skipn h (pkt ++ [x])) = Emitted o).
  { intros n h fuel Hh Ef El. rewrite app_length in *. cbn [length] in *.
    destruct (le_gt_dec h (length pkt)) as [Lh|Lh].
    - rewrite skipn_app in *. replace (h - length pkt)%nat with 0%nat in * by lia. cbn [skipn] in Ef |- *. apply walk_plain; [lia|lia|].
      apply (forall_skipn plain 12 h); assumption.
    - rewrite skipn_all2 in * by (rewrite app_length; cbn; lia). exists []. apply walk_stop; [lia|]. cbn [length]. lia. }
  destruct (is_long_header c0).
  - destruct (G 13 ltac:(lia)) as [c1 ->]. destruct (_ <? 12 + 2 + _) eqn:E2; [eauto|].
    change (Z.to_nat (12 + 2)) with 14%nat. destruct (W _ 14%nat _ ltac:(lia) eq_refl E2) as [o Eo]. change (Z.of_nat 14) with (12 + 2) in Eo. change (Z.of_nat 13) with (12 + 1) in Eo. rewrite Eo. eauto.
  - destruct (_ <? 12 + 1 + _) eqn:E2; [eauto|].
    change (Z.to_nat (12 + 1)) with 13%nat. destruct (W _ 13%nat _ ltac:(lia) eq_refl E2) as [o Eo]. change (Z.of_nat 14) with (12 + 2) in Eo. change (Z.of_nat 13) with (12 + 1) in Eo. rewrite Eo. eauto.
Qed.

(** An unfinished SysEx is followed as far as memory goes. *)
Lemma until_end_none c : Forall plain c -> until_end c = None.
Proof.
  induction c as [|b c IH]; intros H; cbn [until_end]; [reflexivity|]. inversion H as [|? ? [H1 H2] H']; subst.
  unfold SYSEX_END, SYSEX_START. replace (b =? 247) with false by lia. replace (b =? 240) with false by lia. cbn [orb]. rewrite IH by assumption. reflexivity.
Qed.
Definition open_sysex : list Z := [0x80; 0x61; 0; 1; 0; 0; 0; 0; 0; 0; 0; 0; 3; 0xF0; 1; 2].
Theorem runaway more : Forall plain more -> process_rtp_midi_packet (open_sysex ++ more) (Z.of_nat (length open_sysex)) = PFault F_oob.
Proof.
  intros H. unfold process_rtp_midi_packet, open_sysex. cbn [length app].
  match goal with |- context [zget ?l 2] => change (zget l 2) with (Some 0); change (zget l 3) with (Some 1); change (zget l 12) with (Some 3) end.
  cbn iota. change (is_long_header 3) with false. change (four_bit_midi_length 3) with 3. cbn iota.
  change (Z.of_nat 16 <? RTP_HEADER_LEN + 1) with false. change (Z.of_nat 16 <? RTP_HEADER_LEN + 1 + 3) with false. cbn iota.
  change (Z.to_nat (RTP_HEADER_LEN + 1)) with 13%nat. cbn [skipn walk].
  match goal with |- context [?a <=? ?b] => replace (a <=? b) with false by (unfold RTP_HEADER_LEN; cbn [length]; lia) end. cbn [andb].
  change (0xF0 =? SYSEX_START) with true. cbn iota. unfold process_sysex.
  rewrite until_end_none; [reflexivity|]. repeat apply Forall_cons; try (unfold plain; lia). exact H.
Qed.
