(** The functions of ui.c and ui_fm.c: what they draw and what they leave alone. *)
From Coq Require Import String Ascii.
From Verif Require Import Base BaseLemmas SynthModel MidiModel CommModel UiModel.

(** ** Running *)
(** [m] finishes in [Q], or stops and then [E]. *)
Definition wp {A} (m : M ui A) (u : ui) (Q : A -> ui -> Prop) (E : Prop) : Prop :=
  match m u with Done a u' _ => Q a u' | Fault _ => E end.
Lemma wp_weaken {A} (m : M ui A) u (Q Q' : A -> ui -> Prop) (E E' : Prop) :
  wp m u Q E -> (forall a u', Q a u' -> Q' a u') -> (E -> E') -> wp m u Q' E'.
Proof. unfold wp. destruct (m u); auto. Qed.
Lemma wp_bind {A B} (m : M ui A) (k : A -> M ui B) u Q E :
  wp m u (fun a u1 => wp (k a) u1 Q E) E -> wp (bind m k) u Q E.
Proof.
  unfold wp, bind. destruct (m u) as [a u1 o1|]; [|auto]. destruct (k a u1); auto.
Qed.
Lemma wp_ret {A} (a : A) u (Q : A -> ui -> Prop) E : Q a u -> wp (ret a) u Q E.
Proof. intros H. exact H. Qed.
Lemma wp_get u (Q : ui -> ui -> Prop) E : Q u u -> wp get u Q E.
Proof. intros H. exact H. Qed.
Lemma wp_modify f u (Q : unit -> ui -> Prop) E : Q tt (f u) -> wp (modify f) u Q E.
Proof. intros H. exact H. Qed.
Lemma wp_rd {A} (l : list A) i x u (Q : A -> ui -> Prop) E : zget l i = Some x -> Q x u -> wp (rd l i) u Q E.
Proof. intros H HQ. unfold rd. rewrite H. exact HQ. Qed.
Lemma wp_seq (f : Z -> M ui unit) (Inv : Z -> ui -> Prop) E n : forall a u, Inv a u ->
  (forall i u, a <= i < a + Z.of_nat n -> Inv i u -> wp (f i) u (fun _ u' => Inv (i + 1) u') E) ->
  wp (forM (zseq a n) f) u (fun _ u' => Inv (a + Z.of_nat n) u') E.
Proof.
  induction n as [|n IH]; intros a u H0 Hs.
  - cbn. rewrite Z.add_0_r. exact H0.
  - cbn [zseq forM]. apply wp_bind. eapply wp_weaken; [apply Hs; [lia|exact H0]| |auto].
    intros [] u1 H1. replace (a + Z.of_nat (S n)) with (a + 1 + Z.of_nat n) by lia. apply IH; [exact H1|].
    intros i u2 Hi. apply Hs. lia.
Qed.
Lemma wp_done {A} (m : M ui A) u Q E a u' o : wp m u Q E -> m u = Done a u' o -> Q a u'.
Proof. unfold wp. intros H D. rewrite D in H. exact H. Qed.

Lemma set_scr_id u : set_scr u (u_scr u) = u. Proof. destruct u. reflexivity. Qed.
Lemma set_changes_id u : set_changes u (u_changes u) = u. Proof. destruct u. reflexivity. Qed.

(** ** Cells *)
Definition text_at (scr : Z -> Z -> Z) (t : list Z) (x y : Z) : Prop := forall k c, zget t k = Some c -> scr (x + k) y = c.
Definition blank_at (scr : Z -> Z -> Z) (x y w : Z) : Prop := forall k, 0 <= k < w -> scr (x + k) y = BLANK.

(** Parts of the screen: mapping, note and change columns, the special mode
    mark, the log, the lamps, the transport, what is attached, the FM panel. *)
Definition MAPS := 1. Definition NOTES := 2. Definition CHANGES := 3. Definition MARK := 4. Definition LOGS := 5.
Definition LAMPS := 6. Definition TRANSPORT := 8. Definition ATTACHED := 9. Definition PANEL := 7.
Definition GAP := 10. (* the row between the panel and the log *)
Definition region (x y : Z) : Z :=
  if y =? 26 then
    if (2 <=? x) && (x <=? 5) then LAMPS else if (9 <=? x) && (x <=? 15) then TRANSPORT
    else if (17 <=? x) && (x <=? 21) then ATTACHED else 0
  else if y =? 22 then if 3 <=? x then GAP else 0
  else if (23 <=? y) && (y <=? 24) then if 3 <=? x then LOGS else 0
  else if (3 <=? y) && (y <=? 21) then
    if (x =? 3) && (y =? 7) then MARK else if (4 <=? x) && (x <=? 5) then MAPS
    else if (7 <=? x) && (x <=? 9) then NOTES else if (11 <=? x) && (x <=? 17) then CHANGES
    else if (18 <=? x) && (x <=? 56) then PANEL else 0
  else 0.
(** [scr'] differs from [scr] in the parts [l] only. *)
Definition only (l : list Z) (scr scr' : Z -> Z -> Z) : Prop := forall x y, ~ In (region x y) l -> scr' x y = scr x y.
Lemma only_refl l scr : only l scr scr. Proof. intros x y _. reflexivity. Qed.
Lemma only_trans l a b c : only l a b -> only l b c -> only l a c.
Proof. intros H1 H2 x y H. rewrite H2, H1; auto. Qed.
Lemma only_sub l l' a b : only l a b -> incl l l' -> only l' a b.
Proof. intros H I x y Hn. apply H. intros Hi. apply Hn, I, Hi. Qed.

Ltac region_tac := unfold region, MAPS, NOTES, CHANGES, MARK, LOGS, LAMPS, TRANSPORT, ATTACHED, PANEL, GAP in *.

Lemma put_same scr t x y : text_at (put_cells scr t x y) t x y.
Proof. intros k c H. unfold put_cells. rewrite Z.eqb_refl. replace (x + k - x) with k by lia. rewrite H. reflexivity. Qed.
Lemma put_other scr t x y cx cy : (cy = y -> x <= cx < x + Z.of_nat (List.length t) -> False) -> put_cells scr t x y cx cy = scr cx cy.
Proof.
  intros H. unfold put_cells. destruct (Z.eqb_spec cy y) as [->|]; [|reflexivity].
  destruct (zget t (cx - x)) as [c|] eqn:E; [|reflexivity]. apply zget_Some in E. exfalso. apply H; [reflexivity|lia].
Qed.
Definition wiped (scr : Z -> Z -> Z) (x y w h : Z) : Z -> Z -> Z := fun cx cy => if in_rect x y w h cx cy then BLANK else scr cx cy.
Lemma wiped_same scr x y w : blank_at (wiped scr x y w 1) x y w.
Proof. intros k H. unfold wiped, in_rect. replace (_ && _) with true by lia. reflexivity. Qed.
Lemma wiped_other scr x y w h cx cy : in_rect x y w h cx cy = false -> wiped scr x y w h cx cy = scr cx cy.
Proof. intros H. unfold wiped. rewrite H. reflexivity. Qed.

Lemma text_kept l scr scr' t x y : only l scr scr' ->
  (forall k, 0 <= k < Z.of_nat (List.length t) -> ~ In (region (x + k) y) l) -> text_at scr t x y -> text_at scr' t x y.
Proof. intros H Hr T k c Hk. rewrite H; [apply T, Hk|]. apply Hr. eapply zget_Some; eassumption. Qed.
Lemma blank_kept l scr scr' x y w : only l scr scr' ->
  (forall k, 0 <= k < w -> ~ In (region (x + k) y) l) -> blank_at scr x y w -> blank_at scr' x y w.
Proof. intros H Hr T k Hk. rewrite H; [apply T, Hk|apply Hr, Hk]. Qed.

Definition row_y (i : Z) : Z := 3 + 2 * i.
Lemma region_maps i k : 0 <= i < 10 -> 0 <= k < 2 -> region (4 + k) (row_y i) = MAPS.
Proof. intros. unfold row_y. region_tac. repeat match goal with |- context [if ?b then _ else _] => let E := fresh in destruct b eqn:E; try lia end. Qed.
Lemma region_notes i k : 0 <= i < 10 -> 0 <= k < 3 -> region (7 + k) (row_y i) = NOTES.
Proof. intros. unfold row_y. region_tac. repeat match goal with |- context [if ?b then _ else _] => let E := fresh in destruct b eqn:E; try lia end. Qed.
Lemma region_changes i k : 0 <= i < 10 -> 0 <= k < 7 -> region (11 + k) (row_y i) = CHANGES.
Proof. intros. unfold row_y. region_tac. repeat match goal with |- context [if ?b then _ else _] => let E := fresh in destruct b eqn:E; try lia end. Qed.

(** ** The note column *)
Definition pitch_text (p : Z) : list Z :=
  if MIN_UI_MIDI_PITCH <? p then match zget MIDI_PITCH_NAMES (p - MIN_UI_MIDI_PITCH) with Some t => t | None => [] end else str "???".
Definition note_cells (scr : Z -> Z -> Z) (i p : Z) : Prop :=
  if p =? 0 then blank_at scr 7 (row_y i) 3 else text_at scr (pitch_text p) 7 (row_y i).
Definition inv_notes (u : ui) : Prop :=
  List.length (u_pitches u) = 10%nat /\ forall i p, zget (u_pitches u) i = Some p -> note_cells (u_scr u) i p.

Lemma names_len : List.length MIDI_PITCH_NAMES = 107%nat. Proof. reflexivity. Qed.
Lemma names_three : Forall (fun t => List.length t = 3%nat) MIDI_PITCH_NAMES.
Proof. repeat constructor. Qed.
Lemma pitch_len p : (List.length (pitch_text p) <= 3)%nat.
Proof.
  unfold pitch_text. destruct (_ <? p); [|cbn; lia]. destruct (zget _ _) as [t|] eqn:E; [|cbn; lia].
  rewrite (Forall_zget _ _ _ _ names_three E). lia.
Qed.
Lemma note_kept l scr scr' i p : 0 <= i < 10 -> only l scr scr' -> ~ In NOTES l -> note_cells scr i p -> note_cells scr' i p.
Proof.
  intros Hi H Hl. unfold note_cells. destruct (p =? 0).
  - apply (blank_kept l); [exact H|]. intros k Hk. rewrite region_notes by lia. exact Hl.
  - apply (text_kept l); [exact H|]. intros k Hk. assert (L := pitch_len p). rewrite region_notes by lia. exact Hl.
Qed.
Lemma inv_notes_kept l u u' : u_pitches u' = u_pitches u -> only l (u_scr u) (u_scr u') -> ~ In NOTES l -> inv_notes u -> inv_notes u'.
Proof.
  intros E H Hl (L & N). split; [congruence|]. intros i p Hp. rewrite E in Hp. assert (R := zget_Some _ _ _ Hp). rewrite L in R.
  eapply note_kept; [lia|exact H|exact Hl|apply N, Hp].
Qed.
(** One row at a time. *)
Definition rows_only (i : Z) (scr scr' : Z -> Z -> Z) : Prop := forall x y, y <> row_y i -> scr' x y = scr x y.
Lemma note_row i j scr scr' p : j <> i -> rows_only i scr scr' -> note_cells scr j p -> note_cells scr' j p.
Proof.
  intros N H. unfold note_cells, blank_at, text_at. assert (row_y j <> row_y i) by (unfold row_y; lia).
  destruct (p =? 0); intros T; [intros k Hk|intros k c Hk]; rewrite H by assumption; apply T, Hk.
Qed.

Lemma activity_wp l (E : Prop) u : inv_notes u -> List.length l = 10%nat ->
  (forall i p, zget l i = Some p -> 0 <= p /\ (127 < p -> E)) ->
  wp (print_chan_activity l) u (fun _ u' =>
    u_pitches u' = l /\ inv_notes u' /\ u' = set_pitches (set_scr u (u_scr u')) l /\ only [NOTES] (u_scr u) (u_scr u')) E.
Proof.
  intros I0 Ll Hp. unfold print_chan_activity.
  eapply wp_weaken; [apply (wp_seq _ (fun i u' => inv_notes u' /\ (forall j p, 0 <= j < i -> zget (u_pitches u') j = Some p -> zget l j = Some p) /\
     u' = set_pitches (set_scr u (u_scr u')) (u_pitches u') /\ only [NOTES] (u_scr u) (u_scr u')))| |].
  - split; [exact I0|]. split; [intros; lia|]. split; [destruct u; reflexivity|apply only_refl].
  - intros i u1 Hi ((L1 & N1) & P1 & S1 & O1). change (0 + Z.of_nat 10) with 10 in Hi.
    destruct (zget_in_range l i) as [p Ep]; [lia|]. destruct (zget_in_range (u_pitches u1) i) as [q Eq]; [lia|].
    apply wp_bind. eapply wp_rd; [exact Ep|]. apply wp_bind. apply wp_get. apply wp_bind. eapply wp_rd; [exact Eq|].
    destruct (Z.eqb_spec p q) as [<-|Npq].
    { apply wp_ret. split; [split; assumption|]. split; [|auto]. intros j x Hj Ex.
      destruct (Z.eq_dec j i) as [->|]; [congruence|apply P1; [lia|exact Ex]]. }
    apply wp_bind.
    assert (Fin : forall scr, note_cells scr i p -> rows_only i (u_scr u1) scr -> only [NOTES] (u_scr u1) scr ->
      let u2 := set_pitches (set_scr u1 scr) (zset (u_pitches u1) i p) in
      inv_notes u2 /\ (forall j x, 0 <= j < i + 1 -> zget (u_pitches u2) j = Some x -> zget l j = Some x) /\
      u2 = set_pitches (set_scr u (u_scr u2)) (u_pitches u2) /\ only [NOTES] (u_scr u) (u_scr u2)).
    { intros scr C R O u2. subst u2. cbn. split; [split|split; [|split]].
      - cbn. rewrite zset_length. exact L1.
      - cbn. intros j x Ex. rewrite (zget_zset _ _ _ _ q Eq) in Ex. destruct (Z.eqb_spec i j) as [<-|N].
        + injection Ex as <-. exact C.
        + eapply note_row; [|exact R|apply N1, Ex]. auto.
      - intros j x Hj Ex. rewrite (zget_zset _ _ _ _ q Eq) in Ex. destruct (Z.eqb_spec i j) as [<-|N]; [congruence|].
        apply P1; [lia|exact Ex].
      - rewrite S1. reflexivity.
      - eapply only_trans; eassumption. }
    destruct (Z.eqb_spec p 0) as [->|Np].
    + apply wp_modify. apply wp_modify. apply Fin.
      * unfold note_cells. rewrite Z.eqb_refl. unfold PITCH_X, MIDI_Y.
        replace (2 + i * 2 + 1) with (row_y i) by (unfold row_y; lia). exact (wiped_same (u_scr u1) 7 (row_y i) 3).
      * intros x y Hy. apply (wiped_other (u_scr u1)). unfold in_rect, MIDI_Y, PITCH_X, row_y in *. lia.
      * intros x y Hy. apply (wiped_other (u_scr u1)). destruct (in_rect _ _ _ _ _ _) eqn:Er; [|reflexivity]. exfalso. apply Hy. left.
        unfold in_rect, MIDI_Y, PITCH_X in Er. replace x with (7 + (x - 7)) by lia. replace y with (row_y i) by (unfold row_y; lia).
        symmetry. apply region_notes; lia.
    + destruct (Hp i p Ep) as [Hp0 HpE].
      assert (Draw : wp (draw_text (pitch_text p) PITCH_X (MIDI_Y + i * 2)) u1 (fun _ u2 =>
        wp (modify (fun u3 => set_pitches u3 (zset (u_pitches u3) i p))) u2 (fun _ u' =>
          inv_notes u' /\ (forall j x, 0 <= j < i + 1 -> zget (u_pitches u') j = Some x -> zget l j = Some x) /\
          u' = set_pitches (set_scr u (u_scr u')) (u_pitches u') /\ only [NOTES] (u_scr u) (u_scr u')) E) E).
      { apply wp_modify. apply wp_modify. unfold PITCH_X, MIDI_Y.
        replace (1 + (2 + i * 2)) with (row_y i) by (unfold row_y; lia). apply Fin.
        - unfold note_cells. destruct (Z.eqb_spec p 0); [contradiction|]. apply put_same.
        - intros x y Hy. apply put_other. intros; contradiction.
        - intros x y Hy. apply put_other. intros -> Hx. apply Hy. left. assert (Lp := pitch_len p).
          replace x with (7 + (x - 7)) by lia. symmetry. apply region_notes; lia. }
      apply wp_bind. unfold pitch_text in Draw. destruct (Z.ltb_spec MIN_UI_MIDI_PITCH p) as [Hm|Hm].
      * destruct (zget MIDI_PITCH_NAMES (p - MIN_UI_MIDI_PITCH)) as [t|] eqn:Et.
        -- eapply wp_rd; [exact Et|]. exact Draw.
        -- unfold rd. rewrite Et. cbn. apply HpE. apply zget_None in Et. rewrite names_len in Et. unfold MIN_UI_MIDI_PITCH in *. lia.
      * apply wp_ret. exact Draw.
  - cbn beta. intros _ u' (I1 & P1 & S1 & O1).
    assert (El : u_pitches u' = l).
    { apply zget_ext. intros j Hj. destruct I1 as (L1 & _). destruct (zget (u_pitches u') j) as [x|] eqn:Ex.
      - symmetry. apply P1; [|exact Ex]. apply zget_Some in Ex. lia.
      - symmetry. apply zget_None. apply zget_None in Ex. rewrite Ll. rewrite L1 in Ex. exact Ex. }
    split; [exact El|]. split; [exact I1|]. split; [|exact O1]. rewrite S1 at 1. rewrite El. reflexivity.
  - exact (fun e => e).
Qed.

(** ** The change column *)
Definition change_text (c : change) : list Z :=
  if g_type c =? 1 then str "P=" ++ padr 3 (dec (g_value c)) else str "CC" ++ hex (g_key c) ++ str "=" ++ hex (g_value c).
Definition tick (c : change) : change :=
  if g_type c =? 0 then c else if g_ttl c =? 0 then mkChange 0 (g_key c) (g_value c) 0
  else mkChange (g_type c) (g_key c) (g_value c) (g_ttl c - 1).
Definition change_cells (scr : Z -> Z -> Z) (i : Z) (c : change) : Prop :=
  0 <= g_ttl c <= 150 /\ (g_type c = 0 \/ g_type c = 1 \/ g_type c = 2) /\
  (g_type c = 0 -> blank_at scr 11 (row_y i) 7) /\
  (g_type c <> 0 -> g_ttl c < 150 -> text_at scr (change_text c) 11 (row_y i)).
Definition inv_changes (u : ui) : Prop :=
  List.length (u_changes u) = 10%nat /\ forall i c, zget (u_changes u) i = Some c -> change_cells (u_scr u) i c.

Lemma dec_len n : (1 <= List.length (dec n) <= 3)%nat.
Proof. unfold dec. destruct (100 <=? n), (10 <=? n); cbn; lia. Qed.
Lemma change_len c : (List.length (change_text c) <= 7)%nat.
Proof.
  unfold change_text. destruct (g_type c =? 1); [|cbn; lia]. unfold padr. rewrite !app_length, repeat_length. assert (L := dec_len (g_value c)). cbn [List.length str list_ascii_of_string map]. lia.
Qed.
Lemma change_kept l scr scr' i c : 0 <= i < 10 -> only l scr scr' -> ~ In CHANGES l -> change_cells scr i c -> change_cells scr' i c.
Proof.
  intros Hi H Hl (A & B & C & D). split; [exact A|]. split; [exact B|]. split.
  - intros Ht. eapply blank_kept; [exact H| |apply C, Ht]. intros k Hk. rewrite region_changes by lia. exact Hl.
  - intros Ht Hs. eapply text_kept; [exact H| |apply D; assumption]. intros k Hk. assert (L := change_len c).
    rewrite region_changes by lia. exact Hl.
Qed.
Lemma inv_changes_kept l u u' : u_changes u' = u_changes u -> only l (u_scr u) (u_scr u') -> ~ In CHANGES l -> inv_changes u -> inv_changes u'.
Proof.
  intros E H Hl (L & N). split; [congruence|]. intros i p Hp. rewrite E in Hp. assert (R := zget_Some _ _ _ Hp). rewrite L in R.
  eapply change_kept; [lia|exact H|exact Hl|apply N, Hp].
Qed.
Lemma change_row i j scr scr' c : j <> i -> rows_only i scr scr' -> change_cells scr j c -> change_cells scr' j c.
Proof.
  intros N H (A & B & C & D). assert (row_y j <> row_y i) by (unfold row_y; lia). split; [exact A|]. split; [exact B|]. split.
  - intros Ht k Hk. rewrite H by assumption. apply C; assumption.
  - intros Ht Hs k x Hk. rewrite H by assumption. apply D; assumption.
Qed.
Lemma zget_map {A B} (f : A -> B) l i : zget (map f l) i = match zget l i with Some x => Some (f x) | None => None end.
Proof.
  unfold zget. destruct (i <? 0); [reflexivity|]. rewrite nth_error_map. destruct (nth_error l (Z.to_nat i)); reflexivity.
Qed.

Lemma changes_wp (E : Prop) u : inv_changes u ->
  wp print_midi_changes u (fun _ u' =>
    u_changes u' = map tick (u_changes u) /\ inv_changes u' /\ u' = set_changes (set_scr u (u_scr u')) (u_changes u') /\
    only [CHANGES] (u_scr u) (u_scr u')) E.
Proof.
  intros I0. unfold print_midi_changes.
  eapply wp_weaken; [apply (wp_seq _ (fun i u' => inv_changes u' /\
     (forall j c, zget (u_changes u) j = Some c -> zget (u_changes u') j = Some (if j <? i then tick c else c)) /\
     u' = set_changes (set_scr u (u_scr u')) (u_changes u') /\ only [CHANGES] (u_scr u) (u_scr u')))| |].
  - split; [exact I0|]. split; [|split; [destruct u; reflexivity|apply only_refl]].
    intros j c Hc. assert (R := zget_Some _ _ _ Hc). destruct (Z.ltb_spec j 0); [lia|]. exact Hc.
  - intros i u1 Hi ((L1 & N1) & P1 & S1 & O1). change (0 + Z.of_nat 10) with 10 in Hi.
    destruct I0 as (L0 & _).
    destruct (zget_in_range (u_changes u) i) as [c0 Ec0]; [lia|].
    assert (Ec := P1 i c0 Ec0). rewrite Z.ltb_irrefl in Ec. set (c := c0) in *.
    apply wp_bind. apply wp_get. apply wp_bind. eapply wp_rd; [exact Ec|].
    destruct (N1 i c Ec) as (T & Ty & C0 & CN).
    assert (Fin : forall scr, change_cells scr i (tick c) -> rows_only i (u_scr u1) scr -> only [CHANGES] (u_scr u1) scr ->
      let u2 := set_changes (set_scr u1 scr) (zset (u_changes u1) i (tick c)) in
      inv_changes u2 /\ (forall j c, zget (u_changes u) j = Some c -> zget (u_changes u2) j = Some (if j <? i + 1 then tick c else c)) /\
      u2 = set_changes (set_scr u (u_scr u2)) (u_changes u2) /\ only [CHANGES] (u_scr u) (u_scr u2)).
    { intros scr C R O u2. subst u2. cbn. split; [split|split; [|split]].
      - cbn. rewrite zset_length. exact L1.
      - cbn. intros j x Ex. rewrite (zget_zset _ _ _ _ c Ec) in Ex. destruct (Z.eqb_spec i j) as [<-|N].
        + injection Ex as <-. exact C.
        + eapply change_row; [|exact R|apply N1, Ex]. auto.
      - intros j x Ex. rewrite (zget_zset _ _ _ _ c Ec). destruct (Z.eqb_spec i j) as [<-|N].
        + replace (i <? i + 1) with true by lia. congruence.
        + rewrite (P1 j x Ex). f_equal. destruct (Z.ltb_spec j i), (Z.ltb_spec j (i + 1)); try lia; reflexivity.
      - rewrite S1. reflexivity.
      - eapply only_trans; eassumption. }
    destruct (Z.eqb_spec (g_type c) 0) as [E0|N0].
    { apply wp_ret. assert (Et : tick c = c) by (unfold tick; rewrite E0; reflexivity).
      specialize (Fin (u_scr u1)). rewrite Et in Fin. cbn in Fin. rewrite (zset_id _ _ _ Ec) in Fin.
      rewrite set_scr_id, set_changes_id in Fin.
      apply Fin; [exact (N1 i c Ec)|intros x y _; reflexivity|apply only_refl]. }
    destruct (Z.eqb_spec (g_ttl c) 0) as [T0|TN].
    { assert (Et : tick c = mkChange 0 (g_key c) (g_value c) 0).
      { unfold tick. destruct (Z.eqb_spec (g_type c) 0); [contradiction|]. rewrite T0. reflexivity. }
      apply wp_bind. apply wp_modify. apply wp_modify. rewrite <- Et. unfold CHANGE_X, PITCH_X, MIDI_Y.
      replace (1 + 2 + i * 2) with (row_y i) by (unfold row_y; lia). apply Fin.
      - rewrite Et. split; [cbn; lia|]. split; [left; reflexivity|]. split; [|intros X; exfalso; apply X; reflexivity].
        intros _. exact (wiped_same (u_scr u1) 11 (row_y i) 7).
      - intros x y Hy. apply (wiped_other (u_scr u1)). unfold in_rect, row_y in *. lia.
      - intros x y Hy. apply (wiped_other (u_scr u1)). destruct (in_rect _ _ _ _ _ _) eqn:Er; [|reflexivity]. exfalso. apply Hy. left.
        unfold in_rect, row_y in Er. replace x with (11 + (x - 11)) by lia. replace y with (row_y i) by (unfold row_y; lia).
        symmetry. apply region_changes; lia. }
    assert (Et : tick c = mkChange (g_type c) (g_key c) (g_value c) (u16 (g_ttl c - 1))).
    { unfold tick. destruct (Z.eqb_spec (g_type c) 0); [contradiction|]. destruct (Z.eqb_spec (g_ttl c) 0); [contradiction|].
      f_equal. unfold u16. rewrite Z.mod_small by lia. reflexivity. }
    assert (Ex : change_text (tick c) = change_text c) by (rewrite Et; reflexivity).
    assert (Tt : 0 <= g_ttl (tick c) <= 150).
    { rewrite Et. cbn. unfold u16. rewrite Z.mod_small by lia. lia. }
    assert (Tyt : g_type (tick c) = g_type c) by (rewrite Et; reflexivity).
    apply wp_bind. unfold UI_CHANGE_TTL. destruct (Z.eqb_spec (g_ttl c) 150) as [T1|T1].
    + assert (Draw : wp (draw_text (change_text c) CHANGE_X (MIDI_Y + i * 2)) u1 (fun _ u2 =>
        wp (modify (fun u3 => set_changes u3 (zset (u_changes u3) i (mkChange (g_type c) (g_key c) (g_value c) (u16 (g_ttl c - 1)))))) u2 (fun _ u' =>
      inv_changes u' /\ (forall j c, zget (u_changes u) j = Some c -> zget (u_changes u') j = Some (if j <? i + 1 then tick c else c)) /\
      u' = set_changes (set_scr u (u_scr u')) (u_changes u') /\ only [CHANGES] (u_scr u) (u_scr u')) E) E).
      { apply wp_modify. apply wp_modify. rewrite <- Et. unfold CHANGE_X, PITCH_X, MIDI_Y.
        replace (1 + (2 + i * 2)) with (row_y i) by (unfold row_y; lia). apply Fin.
        - split; [exact Tt|]. rewrite Tyt. split; [exact Ty|]. split; [contradiction|]. intros _ _. rewrite Ex. apply put_same.
        - intros x y Hy. apply put_other. intros; contradiction.
        - intros x y Hy. apply put_other. intros -> Hx. apply Hy. left. assert (Lp := change_len c).
          replace x with (11 + (x - 11)) by lia. symmetry. apply region_changes; lia. }
      unfold when. unfold change_text in Draw. destruct (Z.eqb_spec (g_type c) 1) as [G1|G1]; [exact Draw|].
      destruct (Z.eqb_spec (g_type c) 2) as [G2|G2]; [exact Draw|]. exfalso. lia.
    + cbn [when]. unfold when. apply wp_ret. apply wp_modify. rewrite <- Et.
      specialize (Fin (u_scr u1)). rewrite set_scr_id in Fin. apply Fin.
      * split; [exact Tt|]. rewrite Tyt. split; [exact Ty|]. split; [contradiction|]. intros _ _. rewrite Ex. apply CN; [exact N0|lia].
      * intros x y _; reflexivity.
      * apply only_refl.
  - cbn beta. intros _ u' (I1 & P1 & S1 & O1). destruct I0 as (L0 & _).
    assert (El : u_changes u' = map tick (u_changes u)).
    { apply zget_ext. intros j Hj. rewrite zget_map. destruct (zget (u_changes u) j) as [x|] eqn:Ex.
      - rewrite (P1 j x Ex). apply zget_Some in Ex. rewrite L0 in Ex. change (0 + Z.of_nat 10) with 10. replace (j <? 10) with true by lia. reflexivity.
      - apply zget_None. apply zget_None in Ex. destruct I1 as (L1 & _). rewrite L1. rewrite L0 in Ex. exact Ex. }
    split; [exact El|]. split; [exact I1|]. split; [|exact O1]. exact S1.
  - exact (fun e => e).
Qed.

(** ** The mapping column *)
Definition map_text (c : Z) : list Z :=
  if c =? UNASSIGNED then MIDI_CH_UNASSIGNED_TEXT else match zget MIDI_CH_TEXT c with Some t => t | None => [] end.
Definition map_cells (scr : Z -> Z -> Z) (l : list Z) : Prop := forall i c, zget l i = Some c -> text_at scr (map_text c) 4 (row_y i).
Lemma map_two : Forall (fun t => List.length t = 2%nat) MIDI_CH_TEXT. Proof. repeat constructor. Qed.
Lemma map_len c : (List.length (map_text c) <= 2)%nat.
Proof.
  unfold map_text. destruct (c =? UNASSIGNED); [cbn; lia|]. destruct (zget _ _) as [t|] eqn:E; [|cbn; lia].
  rewrite (Forall_zget _ _ _ _ map_two E). lia.
Qed.
Lemma map_kept l scr scr' cs : List.length cs = 10%nat -> only l scr scr' -> ~ In MAPS l -> map_cells scr cs -> map_cells scr' cs.
Proof.
  intros Lc H Hl C i c Hc. assert (R := zget_Some _ _ _ Hc). rewrite Lc in R. eapply text_kept; [exact H| |apply C, Hc].
  intros k Hk. assert (L := map_len c). rewrite region_maps by lia. exact Hl.
Qed.
Lemma mappings_wp (E : Prop) l u : List.length l = 10%nat -> (forall i c, zget l i = Some c -> c = UNASSIGNED \/ 0 <= c < 16) ->
  wp (print_mappings_if_dirty l) u (fun _ u' =>
    u' = set_scr u (u_scr u') /\ only [MAPS] (u_scr u) (u_scr u') /\ (forallb (Z.eqb 0) l = false -> map_cells (u_scr u') l)) E.
Proof.
  intros Ll Hl. unfold print_mappings_if_dirty. destruct (forallb (Z.eqb 0) l) eqn:Ef.
  { apply wp_ret. split; [destruct u; reflexivity|]. split; [apply only_refl|discriminate]. }
  eapply wp_weaken; [apply (wp_seq _ (fun i u' => u' = set_scr u (u_scr u') /\ only [MAPS] (u_scr u) (u_scr u') /\
     (forall j c, j < i -> zget l j = Some c -> text_at (u_scr u') (map_text c) 4 (row_y j))))| |].
  - split; [destruct u; reflexivity|]. split; [apply only_refl|]. intros j c Hj Hc. apply zget_Some in Hc. lia.
  - intros i u1 Hi (S1 & O1 & C1). change (0 + Z.of_nat 10) with 10 in Hi.
    destruct (zget_in_range l i) as [c Ec]; [lia|]. apply wp_bind. eapply wp_rd; [exact Ec|].
    assert (Draw : wp (draw_text (map_text c) 3 (MIDI_Y + i * 2)) u1 (fun _ u' => u' = set_scr u (u_scr u') /\ only [MAPS] (u_scr u) (u_scr u') /\
     (forall j c, j < i + 1 -> zget l j = Some c -> text_at (u_scr u') (map_text c) 4 (row_y j))) E).
    { apply wp_modify. unfold MIDI_Y. replace (1 + (2 + i * 2)) with (row_y i) by (unfold row_y; lia). change (1 + 3) with 4. cbn [u_scr set_scr].
      split; [rewrite S1; reflexivity|]. split.
      - eapply only_trans; [exact O1|]. intros x y Hy. apply put_other. intros -> Hx. apply Hy. left. assert (Lp := map_len c).
        replace x with (4 + (x - 4)) by lia. symmetry. apply region_maps; lia.
      - intros j x Hj Ex. destruct (Z.eq_dec j i) as [->|N].
        + rewrite Ec in Ex. injection Ex as <-. apply put_same.
        + intros k t Hk. rewrite put_other by (unfold row_y; lia). apply (C1 j x); [lia|exact Ex|exact Hk]. }
    apply wp_bind. unfold map_text in Draw. destruct (Z.eqb_spec c UNASSIGNED) as [->|N].
    + apply wp_ret. exact Draw.
    + destruct (Hl i c Ec) as [|Rc]; [contradiction|]. destruct (zget_in_range MIDI_CH_TEXT c) as [t Et]; [exact Rc|].
      rewrite Et in Draw. eapply wp_rd; [exact Et|exact Draw].
  - cbn beta. intros _ u' (S1 & O1 & C1). split; [exact S1|]. split; [exact O1|]. intros _ i c Hc. apply (C1 i c); [|exact Hc].
    apply zget_Some in Hc. lia.
  - exact (fun e => e).
Qed.

(** ** The bottom line, the log and the marks *)
Ltac decide_all := repeat match goal with |- context [if ?b then _ else _] => let E := fresh in destruct b eqn:E; try lia end.
Lemma region_transport k : 0 <= k < 7 -> region (9 + k) 26 = TRANSPORT. Proof. intros. region_tac. decide_all. Qed.
Lemma region_attached k : 0 <= k < 5 -> region (17 + k) 26 = ATTACHED. Proof. intros. region_tac. decide_all. Qed.
Lemma region_lamps k : 0 <= k < 4 -> region (2 + k) 26 = LAMPS. Proof. intros. region_tac. decide_all. Qed.
Lemma region_logs x y : 23 <= y <= 24 -> 3 <= x -> region x y = LOGS. Proof. intros. region_tac. decide_all. Qed.
Lemma region_gap x : 3 <= x -> region x 22 = GAP. Proof. intros. region_tac. decide_all. Qed.

(** A picture [w] wide at the transport's place. *)
Definition mode_cells (scr : Z -> Z -> Z) (mode : Z) : Prop :=
  let '(pic, w, _) := mode_picture mode in
  forall k, 0 <= k < 7 -> scr (9 + k) 26 = if k <? w then 2000 + 100 * pic + k else BLANK.
Definition inv_mode (u : ui) : Prop := u_inited u = snd (mode_picture (u_mode u)) /\ mode_cells (u_scr u) (u_mode u).
Lemma inv_mode_kept l u u' : u_inited u' = u_inited u -> u_mode u' = u_mode u -> only l (u_scr u) (u_scr u') -> ~ In TRANSPORT l ->
  inv_mode u -> inv_mode u'.
Proof.
  intros E1 E2 H Hl (A & B). split; [rewrite E1, E2; exact A|]. rewrite E2. unfold mode_cells in *. destruct (mode_picture (u_mode u)) as ((pic, w), i).
  intros k Hk. rewrite H; [apply B, Hk|]. rewrite region_transport by exact Hk. exact Hl.
Qed.
Lemma mode_width mode : 0 <= snd (fst (mode_picture mode)) <= 7.
Proof. unfold mode_picture. decide_all; cbn; lia. Qed.
Lemma in_rect_row x y w cx cy : in_rect x y w 1 cx cy = true -> cy = y /\ x <= cx < x + w.
Proof. unfold in_rect. lia. Qed.
(** What is attached stays until a transport is in use. *)
Definition att (u u' : ui) : Prop :=
  u_inited u' = u_inited u /\ (forall k, 0 <= k < 5 -> u_scr u' (17 + k) 26 = u_scr u (17 + k) 26) \/
  u_inited u' = true /\ blank_at (u_scr u') 17 26 5.
Lemma att_only l u u' : u_inited u' = u_inited u -> only l (u_scr u) (u_scr u') -> ~ In ATTACHED l -> att u u'.
Proof. intros E O H. left. split; [exact E|]. intros k Hk. apply O. rewrite region_attached by exact Hk. exact H. Qed.
Lemma att_trans a b c : att a b -> att b c -> att a c.
Proof.
  intros [[E1 H1]|[E1 H1]] [[E2 H2]|[E2 H2]]; try (right; split; [exact E2|exact H2]).
  - left. split; [congruence|]. intros k Hk. rewrite H2 by exact Hk. apply H1, Hk.
  - right. split; [congruence|]. intros k Hk. rewrite H2 by exact Hk. apply H1, Hk.
Qed.
Lemma comm_wp (E : Prop) mode u : (u_inited u = false -> u_mode u = mode -> inv_mode u) -> (u_inited u = true -> inv_mode u) ->
  wp (print_comm_mode mode) u (fun _ u' =>
    inv_mode u' /\ u_mode u' = (if u_inited u then u_mode u else mode) /\
    u' = set_comm (set_scr u (u_scr u')) (u_inited u') (u_mode u') /\ only [TRANSPORT; ATTACHED] (u_scr u) (u_scr u') /\ att u u') E.
Proof.
  intros I0 I1. unfold print_comm_mode. apply wp_bind. apply wp_get. destruct (u_inited u) eqn:Ei.
  { apply wp_ret. split; [auto|]. split; [reflexivity|]. split; [destruct u; reflexivity|]. split; [apply only_refl|]. left. auto. }
  destruct (Z.eqb_spec (u_mode u) mode) as [Em|Nm].
  { apply wp_ret. split; [auto|]. split; [exact Em|]. split; [destruct u; reflexivity|]. split; [apply only_refl|]. left. auto. }
  assert (W := mode_width mode). destruct (mode_picture mode) as ((pic, w), i) eqn:Ep. cbn [fst snd] in W.
  apply wp_bind. apply wp_modify. apply wp_bind. apply wp_modify. apply wp_bind. apply wp_modify.
  assert (Out : forall x y, ~ In (region x y) [TRANSPORT; ATTACHED] -> in_rect 9 (MAX_EFFECTIVE_Y + 1) 7 1 x y = false /\
      in_rect 9 (MAX_EFFECTIVE_Y + 1) w 1 x y = false /\ in_rect COMM_EXTRA_X (MAX_EFFECTIVE_Y + 1) 5 1 x y = false).
  { intros x y Hn. repeat apply conj; apply Bool.not_true_is_false; intros Er; apply in_rect_row in Er; destruct Er as (-> & Er); apply Hn.
    - left. replace x with (9 + (x - 9)) by lia. symmetry. apply region_transport. lia.
    - left. replace x with (9 + (x - 9)) by lia. symmetry. apply region_transport. lia.
    - right. left. replace x with (17 + (x - 17)) by (unfold COMM_EXTRA_X in *; lia). symmetry. apply region_attached. unfold COMM_EXTRA_X in *; lia. }
  unfold when. destruct i; [apply wp_modify|apply wp_ret]; (split; [|split; [reflexivity|split; [reflexivity|split]]]).
  - split; [cbn; rewrite Ep; reflexivity|]. cbn. unfold mode_cells. rewrite Ep. intros k Hk. unfold COMM_EXTRA_X, MAX_EFFECTIVE_Y.
    replace (in_rect 17 (25 + 1) 5 1 (9 + k) 26) with false by (unfold in_rect; lia).
    replace (in_rect 9 (25 + 1) 7 1 (9 + k) 26) with true by (unfold in_rect; lia).
    destruct (Z.ltb_spec k w); [replace (in_rect 9 (25 + 1) w 1 (9 + k) 26) with true by (unfold in_rect; lia); lia|
      replace (in_rect 9 (25 + 1) w 1 (9 + k) 26) with false by (unfold in_rect; lia); reflexivity].
  - intros x y Hn. destruct (Out x y Hn) as (R1 & R2 & R3). cbn. rewrite R1, R2, R3. reflexivity.
  - right. split; [reflexivity|]. intros k Hk. cbn. unfold COMM_EXTRA_X, MAX_EFFECTIVE_Y.
    replace (in_rect 17 (25 + 1) 5 1 (17 + k) 26) with true by (unfold in_rect; lia). reflexivity.
  - split; [cbn; rewrite Ep; reflexivity|]. cbn. unfold mode_cells. rewrite Ep. intros k Hk. unfold COMM_EXTRA_X, MAX_EFFECTIVE_Y.
    replace (in_rect 9 (25 + 1) 7 1 (9 + k) 26) with true by (unfold in_rect; lia).
    destruct (Z.ltb_spec k w); [replace (in_rect 9 (25 + 1) w 1 (9 + k) 26) with true by (unfold in_rect; lia); lia|
      replace (in_rect 9 (25 + 1) w 1 (9 + k) 26) with false by (unfold in_rect; lia); reflexivity].
  - intros x y Hn. destruct (Out x y Hn) as (R1 & R2 & R3). cbn. rewrite R1, R2. reflexivity.
  - left. split; [cbn; congruence|]. intros k Hk. cbn. unfold MAX_EFFECTIVE_Y.
    replace (in_rect 9 (25 + 1) 7 1 (17 + k) 26) with false by (unfold in_rect; lia).
    replace (in_rect 9 (25 + 1) w 1 (17 + k) 26) with false by (unfold in_rect; lia). reflexivity.
Qed.

(** The log: the last message, and the one before it if both are there. *)
Definition log_row (u : ui) : Z := 22 + u_logy u.
Lemma log_wp (E : Prop) log u : 0 <= u_logy u <= 2 ->
  wp (print_log log) u (fun _ u' =>
    0 <= u_logy u' <= 2 /\ u' = set_logy (set_scr u (u_scr u')) (u_logy u') /\ only [LOGS; GAP] (u_scr u) (u_scr u') /\
    match log with
    | None => u' = u
    | Some msg => u_logy u' = (if 2 <=? u_logy u then 1 else u_logy u + 1) /\ text_at (u_scr u') msg 4 (log_row u') /\
        (u_logy u = 1 -> forall x, u_scr u' x 23 = u_scr u x 23) /\
        (u_logy u = 2 -> forall x, 3 <= x < 38 -> (u_scr u' x 24 = BLANK))
    end) E.
Proof.
  intros R. unfold print_log. destruct log as [msg|]; [|apply wp_ret; split; [exact R|]; split; [destruct u; reflexivity|]; split; [apply only_refl|reflexivity]].
  apply wp_bind. apply wp_get. apply wp_bind.
  assert (O1 : forall scr y, 23 <= y <= 24 -> only [LOGS; GAP] scr (put_cells scr msg 4 y)).
  { intros scr y Hy cx cy Hn. apply put_other. intros -> Hx. apply Hn. left. symmetry. apply region_logs; lia. }
  unfold when, MAX_LOG_LINES. destruct (Z.leb_spec 2 (u_logy u)) as [H2|H2].
  - unfold clear_log_area. apply wp_bind. apply wp_modify. apply wp_modify. apply wp_bind. apply wp_get. apply wp_bind. apply wp_modify.
    apply wp_modify. cbn [set_scr set_logy u_scr u_logy]. change (u8 (0 + 1)) with 1. split; [lia|]. split; [reflexivity|].
    change (1 + (1 + LOG_X)) with 4. change (1 + (LOG_Y + 1 + 0)) with 23.
    change (1 + LOG_X) with 3. change (LOG_Y + 1) with 22. change (MAX_EFFECTIVE_X - LOG_X) with 35. change (2 + 1) with 3.
    split; [|split; [reflexivity|split; [|split]]].
    + eapply only_trans; [|apply O1; lia]. intros x y Hn. apply (wiped_other (u_scr u)).
      destruct (in_rect _ _ _ _ _ _) eqn:Er; [|reflexivity]. exfalso. apply Hn. unfold in_rect, MAX_LOG_LINES in Er.
      destruct (Z.eq_dec y 22) as [->|N]; [right; left; symmetry; apply region_gap; lia|left; symmetry; apply region_logs; lia].
    + apply put_same.
    + intros; lia.
    + intros _ x Hx. rewrite put_other by lia. unfold in_rect, MAX_LOG_LINES. replace (_ && _) with true by lia. reflexivity.
  - apply wp_ret. apply wp_bind. apply wp_get. apply wp_bind. apply wp_modify. apply wp_modify. cbn [set_scr set_logy u_scr u_logy].
    unfold u8. rewrite Z.mod_small by lia. split; [lia|]. split; [reflexivity|].
    change (1 + (1 + LOG_X)) with 4. change (1 + (LOG_Y + 1 + u_logy u)) with (1 + (22 + u_logy u)). unfold log_row. cbn [u_logy set_logy].
    split; [|split; [reflexivity|split; [|split]]].
    + apply O1. lia.
    + replace (22 + (u_logy u + 1)) with (1 + (22 + u_logy u)) by lia. apply put_same.
    + intros H1 x. apply put_other. lia.
    + intros; lia.
Qed.

Lemma routing_wp (E : Prop) b u : u_icon u = u_dyn u ->
  wp (print_routing_mode_if_needed b) u (fun _ u' => u' = set_icon (set_dyn u b) b) E.
Proof.
  intros I. unfold print_routing_mode_if_needed. apply wp_bind. apply wp_get. unfold when, print_routing_mode.
  destruct (Bool.eqb_spec (u_dyn u) b) as [Eb|Nb]; cbn [negb].
  - apply wp_ret. subst b. rewrite <- I at 2. destruct u. reflexivity.
  - apply wp_bind. apply wp_modify. apply wp_modify. reflexivity.
Qed.

Definition inv_mark (u : ui) : Prop := u_scr u 3 7 = if u_ch3 u then 2000 + 100 * PIC_SP else BLANK.
Lemma inv_mark_kept l u u' : u_ch3 u' = u_ch3 u -> only l (u_scr u) (u_scr u') -> ~ In MARK l -> inv_mark u -> inv_mark u'.
Proof. intros E H Hl I. unfold inv_mark. rewrite E, H; [exact I|exact Hl]. Qed.
Lemma mark_wp (E : Prop) b u : inv_mark u ->
  wp (when (negb (Bool.eqb b (u_ch3 u))) (update_ch3sp b ;; modify (fun u => set_ch3 u b))) u (fun _ u' =>
    inv_mark u' /\ u' = set_ch3 (set_scr u (u_scr u')) b /\ only [MARK] (u_scr u) (u_scr u')) E.
Proof.
  intros I. unfold when. destruct (Bool.eqb_spec b (u_ch3 u)) as [Eb|Nb]; cbn [negb].
  - apply wp_ret. split; [exact I|]. split; [|apply only_refl]. subst b. destruct u; reflexivity.
  - assert (Out : forall x y, ~ In (region x y) [MARK] -> in_rect (DEVICE_X + 2) (FM_DEVICE_Y + 2 * 2) 1 1 x y = false).
    { intros x y Hn. apply Bool.not_true_is_false. intros Er. apply in_rect_row in Er. destruct Er as (-> & Er). apply Hn. left.
      replace x with 3 by (unfold DEVICE_X in Er; lia). reflexivity. }
    unfold update_ch3sp. apply wp_bind. destruct b; apply wp_modify; apply wp_modify; (split; [|split; [reflexivity|]]).
    + reflexivity.
    + intros x y Hn. cbn. rewrite Out by exact Hn. reflexivity.
    + reflexivity.
    + intros x y Hn. cbn. rewrite Out by exact Hn. reflexivity.
Qed.

(** ** The lamps *)
Definition lamp_cells (scr : Z -> Z -> Z) (p : Z) : Prop :=
  forall k, 0 <= k < 4 -> scr (2 + k) 26 = if (0 <? p) && (25 * k <=? p) then 1000 + k else 1004 + k.
Definition lamps_same (scr scr' : Z -> Z -> Z) : Prop := forall k, 0 <= k < 4 -> scr' (2 + k) 26 = scr (2 + k) 26.
(** The share of reads, as a percentage. *)
Definition busy_share (c : comm) : Z := if cm_idle c + cm_reads c =? 0 then 0 else 100 * cm_reads c / (cm_idle c + cm_reads c).
Definition lamp_post (delta : Z) (c : comm) (u u' : ui) : Prop := forall a, u_meter u = mkMeter 0 a a -> 0 <= a < 15 ->
  if 15 <=? a + delta then u_meter u' = meter0 /\ (0 <= cm_idle c -> 0 <= cm_reads c -> lamp_cells (u_scr u') (busy_share c))
  else u_meter u' = mkMeter 0 (a + delta) (a + delta) /\ lamps_same (u_scr u) (u_scr u').
Lemma lamps_kept l scr scr' : only l scr scr' -> ~ In LAMPS l -> lamps_same scr scr'.
Proof. intros O H k Hk. apply O. rewrite region_lamps by exact Hk. exact H. Qed.
Lemma busy_share_range c : 0 <= cm_idle c -> 0 <= cm_reads c -> 0 <= busy_share c <= 100.
Proof.
  intros H1 H2. unfold busy_share. destruct (Z.eqb_spec (cm_idle c + cm_reads c) 0) as [|N]; [lia|].
  split; [apply Z.div_pos; lia|]. apply Z.div_le_upper_bound; nia.
Qed.
Lemma busy_share_load c : 0 <= cm_idle c -> 0 <= cm_reads c -> load_percent c = busy_share c.
Proof.
  intros H1 H2. assert (R := busy_share_range c H1 H2). unfold load_percent, busy_share in *.
  destruct (Z.eqb_spec (cm_idle c) 0) as [E1|N1], (Z.eqb_spec (cm_reads c) 0) as [E2|N2]; cbn [andb];
    destruct (Z.eqb_spec (cm_idle c + cm_reads c) 0) as [E|N]; try lia; rewrite (Z.mul_comm (cm_reads c) 100); unfold u16; rewrite Z.mod_small by lia; reflexivity.
Qed.

Lemma leds_wp (E : Prop) p u : wp (draw_leds p) u (fun _ u' => u' = set_scr u (u_scr u') /\ only [LAMPS] (u_scr u) (u_scr u') /\
  (0 <= p -> lamp_cells (u_scr u') p)) E.
Proof.
  unfold draw_leds. eapply wp_weaken; [apply (wp_seq _ (fun i u' => u' = set_scr u (u_scr u') /\ only [LAMPS] (u_scr u) (u_scr u') /\
    (0 <= p -> forall k, 0 <= k < i -> u_scr u' (2 + k) 26 = if (0 <? p) && (25 * k <=? p) then 1000 + k else 1004 + k)))| |].
  - split; [destruct u; reflexivity|]. split; [apply only_refl|]. intros _ k Hk. lia.
  - intros i u1 Hi (S1 & O1 & L1). apply wp_modify. cbn [u_scr set_scr]. split; [rewrite S1; reflexivity|]. split.
    + eapply only_trans; [exact O1|].
      intros x y Hn. apply put_other. cbn [List.length]. intros -> Hx. apply Hn. left. symmetry. replace x with (2 + i) by lia. apply region_lamps. lia.
    + intros Hp k Hk. destruct (Z.eq_dec k i) as [->|Nk].
      * match goal with |- put_cells ?scr [?c] _ _ _ _ = _ => assert (X := put_same scr [c] (2 + i) 26 0 c eq_refl); rewrite Z.add_0_r in X; change (put_cells scr [c] (2 + i) 26 (2 + i) 26 = if (0 <? p) && (25 * i <=? p) then 1000 + i else 1004 + i); rewrite X end.
        unfold TILE_LED.
        assert (Lv : (i <? (if p =? 0 then 0 else p / 25 + 1)) = (0 <? p) && (25 * i <=? p)).
        { assert (D := Z.div_mod p 25 ltac:(lia)). assert (D2 := Z.mod_pos_bound p 25 ltac:(lia)). destruct (Z.eqb_spec p 0); lia. }
        rewrite Lv. destruct ((0 <? p) && (25 * i <=? p)); lia.
      * rewrite put_other by (cbn [List.length]; lia). apply L1; [exact Hp|lia].
  - cbn beta. intros [] u' (A & B & C). auto.
  - exact (fun e => e).
Qed.
Lemma load_wp (E : Prop) delta c u : 1 <= delta < 65000 -> wp (update_load delta c) u (fun _ u' =>
  u' = set_meter (set_scr u (u_scr u')) (u_meter u') /\ only [LAMPS] (u_scr u) (u_scr u') /\ lamp_post delta c u u') E.
Proof.
  intros Hd. unfold update_load. apply wp_bind. apply wp_get. destruct (load_frame delta (c, u_meter u)) as ((c', m'), o) eqn:El.
  apply wp_bind. apply wp_modify.
  assert (G : forall o u1, wp (forM o (fun e => match e with CevShow p => draw_leds p | _ => ret tt end)) u1
    (fun _ u' => u' = set_scr u1 (u_scr u') /\ only [LAMPS] (u_scr u1) (u_scr u') /\
       (o = [] -> u' = u1) /\ forall p, o = [CevShow p] -> 0 <= p -> lamp_cells (u_scr u') p) E).
  { clear. induction o as [|e o IH]; intros u1; cbn [forM].
    { apply wp_ret. split; [destruct u1; reflexivity|]. split; [apply only_refl|]. split; [reflexivity|discriminate]. }
    apply wp_bind. assert (H : wp (match e with CevShow p => draw_leds p | _ => ret tt end) u1
      (fun _ u' => u' = set_scr u1 (u_scr u') /\ only [LAMPS] (u_scr u1) (u_scr u') /\ forall p, e = CevShow p -> 0 <= p -> lamp_cells (u_scr u') p) E).
    { destruct e; try (apply wp_ret; split; [destruct u1; reflexivity|]; split; [apply only_refl|discriminate]).
      eapply wp_weaken; [apply leds_wp| |exact (fun e => e)]. intros [] u2 (A & B & C). split; [exact A|]. split; [exact B|]. intros p [= <-]. exact C. }
    eapply wp_weaken; [exact H| |exact (fun e => e)]. intros [] u2 (S2 & O2 & L2). eapply wp_weaken; [apply IH| |exact (fun e => e)].
    intros [] u3 (S3 & O3 & N3 & _). split; [rewrite S3, S2; reflexivity|]. split; [eapply only_trans; eassumption|]. split; [discriminate|].
    intros p [= -> ->] Hp. rewrite (N3 eq_refl). apply L2; [reflexivity|exact Hp]. }
  eapply wp_weaken; [apply G| |exact (fun e => e)]. intros [] u' (S & O & N & L). cbn [u_scr set_meter] in O.
  assert (Em : u_meter u' = m') by (rewrite S; reflexivity).
  split; [rewrite S; reflexivity|]. split; [exact O|]. intros a Ea Ha. rewrite Ea in El. unfold load_frame in El.
  cbn [lm_calc lm_sum lm_load] in El. unfold FRAMES_BEFORE_UPDATE_LOAD_PERCENT, FRAMES_BEFORE_UPDATE_LOAD in El.
  assert (Eu : u16 (a + delta) = a + delta) by (unfold u16; rewrite Z.mod_small; lia). rewrite Eu in El.
  destruct (15 <=? a + delta).
  - apply pair_equal_spec in El as [El Eo]. apply pair_equal_spec in El as [_ El]. split; [rewrite Em, <- El; reflexivity|].
    intros H1 H2. assert (R := busy_share_range c H1 H2). apply L; [|lia]. rewrite <- Eo, busy_share_load by assumption.
    change (15 / 15) with 1. unfold u16. rewrite Z.div_1_r, Z.mod_small by lia. reflexivity.
  - apply pair_equal_spec in El as [El Eo]. apply pair_equal_spec in El as [_ El]. split; [rewrite Em, <- El; reflexivity|].
    rewrite (N (eq_sym Eo)). intros k _. reflexivity.
Qed.
