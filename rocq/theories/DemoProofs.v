From Verif Require Import Base BaseLemmas RingBufModel RingBufSpec RingBufProofs MidiModel RxModel RxSpec RxProofs DemoModel DemoSpec.

(** ** Ring facts for 24 bytes *)
Lemma write24 r q b : ring_repr r 24 q -> is_byte b -> (length q < 23)%nat ->
  exists r', ring_buf_write b r = Done RB_OK r' [] /\ ring_repr r' 24 (q ++ [b]).
Proof.
  intros Hr Hb Hl. destruct (ring_step_refines r 24 q (RWrite b) Hr Hb) as (r' & E & R).
  cbn [ring_step fifo_step] in *. change (Z.to_nat (24 - 1)) with 23%nat in *.
  destruct (Nat.ltb_spec (length q) 23) as [H|H]; [|lia]. cbn [fst snd] in *.
  exists r'. split; [|exact R]. unfold bind, ret in E.
  destruct (ring_buf_write b r) as [a r1 o|f]; [|discriminate].
  injection E as -> -> Eo. rewrite app_nil_r in Eo. subst. reflexivity.
Qed.
Lemma read24 r x q : ring_repr r 24 (x :: q) ->
  exists r', ring_buf_read r = Done (RB_OK, Some x) r' [] /\ ring_repr r' 24 q.
Proof.
  intros Hr. destruct (ring_step_refines r 24 (x :: q) RRead Hr I) as (r' & E & R).
  cbn [ring_step fifo_step fst snd] in *. exists r'. split; [|exact R]. unfold bind, ret in E.
  destruct (ring_buf_read r) as [[st d] r1 o|f]; [|discriminate]. cbn [fst snd] in E.
  injection E as -> -> -> Eo. rewrite app_nil_r in Eo. subst. reflexivity.
Qed.
Lemma ready24 r q : ring_repr r 24 q -> ring_buf_can_read r = match q with [] => false | _ => true end.
Proof.
  intros Hr. destruct (ring_step_refines r 24 q RCanRead Hr I) as (r' & E & _).
  cbn [ring_step fifo_step fst snd] in E. unfold bind, gets, ret in E. congruence.
Qed.

(** ** Sending *)
(** [s] with the bytes [q] waiting. *)
Definition waits (s : demo) (q : list Z) : Prop := ring_repr (dm_ring s) 24 q.
(** [s'] is [s] but for the ring. *)
Definition same (s s' : demo) : Prop := s' = dm_set_ring (dm_ring s') s.

Lemma same_refl s : same s s.
Proof. destruct s; reflexivity. Qed.
Lemma same_trans a b c : same a b -> same b c -> same a c.
Proof. unfold same. intros -> ->. reflexivity. Qed.

Lemma put_ok b s q : waits s q -> is_byte b -> (length q < 23)%nat ->
  exists s', put_byte b s = Done tt s' [] /\ waits s' (q ++ [b]) /\ same s s'.
Proof.
  intros Hw Hb Hl. destruct (write24 (dm_ring s) q b Hw Hb Hl) as (r' & E & R).
  exists (dm_set_ring r' s). unfold put_byte. rewrite E. repeat split; auto.
Qed.
(** A list of bytes. *)
Fixpoint put_all (l : list Z) : M demo unit := match l with [] => ret tt | b :: t => put_byte b ;; put_all t end.
Lemma put_all_ok l : forall s q, waits s q -> Forall is_byte l -> (length q + length l <= 23)%nat ->
  exists s', put_all l s = Done tt s' [] /\ waits s' (q ++ l) /\ same s s'.
Proof.
  induction l as [|b l IH]; intros s q Hw Hb Hl; cbn [put_all].
  - exists s. rewrite app_nil_r. split; [reflexivity|]. split; [exact Hw|apply same_refl].
  - inversion Hb; subst. cbn [length] in Hl.
    destruct (put_ok b s q Hw) as (s1 & E1 & W1 & S1); [assumption|lia|].
    destruct (IH s1 (q ++ [b]) W1) as (s2 & E2 & W2 & S2); [assumption|rewrite app_length; cbn; lia|].
    exists s2. unfold bind. rewrite E1, E2. split; [reflexivity|].
    split; [rewrite <- app_assoc in W2; exact W2|]. eapply same_trans; eassumption.
Qed.
Lemma put_all_one b s : put_all [b] s = put_byte b s.
Proof. cbn [put_all]. unfold bind, ret. destruct (put_byte b s) as [[] ? o|]; [rewrite app_nil_r|]; reflexivity. Qed.
Lemma note_off_put p s : send_note_off p s = put_all [0x80; p; 0] s.
Proof.
  unfold send_note_off, put_all, bind, ret. destruct (put_byte 128 s) as [[] s1 o1|]; [|reflexivity].
  destruct (put_byte p s1) as [[] s2 o2|]; [|reflexivity].
  destruct (put_byte 0 s2) as [[] s3 o3|]; [rewrite app_nil_r|]; reflexivity.
Qed.
Lemma note_on_put p s : send_note_on p s = put_all [0x90; p; 127] s.
Proof.
  unfold send_note_on, put_all, bind, ret. destruct (put_byte 144 s) as [[] s1 o1|]; [|reflexivity].
  destruct (put_byte p s1) as [[] s2 o2|]; [|reflexivity].
  destruct (put_byte 127 s2) as [[] s3 o3|]; [rewrite app_nil_r|]; reflexivity.
Qed.
Lemma program_put p s : send_program_change p s = put_all [0xC0; p] s.
Proof.
  unfold send_program_change, put_all, bind, ret. destruct (put_byte 192 s) as [[] s1 o1|]; [|reflexivity].
  destruct (put_byte p s1) as [[] s2 o2|]; [rewrite app_nil_r|]; reflexivity.
Qed.

(** ** What is waiting, as messages *)
Definition demo_msg (m : msg) : Prop :=
  match m with
  | NoteOn c p v => c = 0 /\ 11 <= p <= 106 /\ v = 127
  | NoteOff c p v => c = 0 /\ 11 <= p <= 106 /\ v = 0
  | Program c g => c = 0 /\ 0 <= g < 128
  | Control c k v => c = 0 /\ k = 83 /\ v = 127
  | _ => False
  end.
Lemma demo_msg_ok m : demo_msg m -> msg_ok m.
Proof. destruct m; cbn; unfold chan_ok, data_ok; intuition lia. Qed.
Lemma demo_msgs_ok l : Forall demo_msg l -> Forall msg_ok l.
Proof. apply Forall_impl. exact demo_msg_ok. Qed.
Lemma demo_msgs_playable l : Forall demo_msg l -> Forall playable (meanings [] l).
Proof.
  intros H. unfold meanings. apply Forall_flat_map. eapply Forall_impl; [|exact H].
  intros m Hm. destruct m; cbn in *; try tauto; repeat constructor; cbn; tauto.
Qed.

(** Pending messages [msgs], sounding state [x] when the first is played. *)
Definition pending (x : option Z) (s : demo) (msgs : list msg) : Prop :=
  waits s (stream msgs) /\ dm_rx s = None /\ 11 <= dm_pitch s <= 106 /\ 0 <= dm_prog s < 128 /\
  Forall demo_msg msgs /\
  exists y, one_note x (meanings [] msgs) = Some y /\ (y = None \/ y = Some (dm_pitch s)).

Lemma one_note_app l1 : forall x l2, one_note x (l1 ++ l2)
  = match one_note x l1 with Some y => one_note y l2 | None => None end.
Proof.
  induction l1 as [|m l1 IH]; intros x l2; cbn [app one_note]; [reflexivity|].
  destruct m; try apply IH. destruct x; [reflexivity|apply IH].
Qed.
Lemma stream_app a b : stream (a ++ b) = stream a ++ stream b.
Proof. apply flat_map_app. Qed.
Lemma meanings_app st a b : meanings st (a ++ b) = meanings st a ++ meanings st b.
Proof. apply flat_map_app. Qed.

(** A block that releases the note: it sends some of the messages of [more]. *)
Definition grows (k : nat) (x : option Z) (m : M demo unit) (s : demo) (msgs : list msg) : Prop :=
  exists s' more, m s = Done tt s' [] /\ pending x s' (msgs ++ more) /\ (length (stream more) <= k)%nat /\ dm_on s' = dm_on s.

Lemma grows_when k x b m s msgs : pending x s msgs -> (b = true -> grows k x m s msgs) ->
  grows (if b then k else 0)%nat x (when b m) s msgs.
Proof.
  intros Hp H. unfold when. destruct b; [apply H; reflexivity|].
  exists s, []. rewrite app_nil_r. repeat split; auto; apply Hp.
Qed.

Lemma grows_mono k k' x m s msgs : (k <= k')%nat -> grows k x m s msgs -> grows k' x m s msgs.
Proof. intros L (s' & more & A & B & C & D). exists s', more. repeat split; auto; try apply B. lia. Qed.

Lemma button_same joy mask s : exists b s', should_repeat_button joy mask s = Done b s' [] /\
  s' = dm_set_repeat (dm_button s') (dm_timer s') s /\ (b = true -> held joy mask = true).
Proof.
  unfold should_repeat_button, held, bind, get, modify, ret. cbn [app].
  destruct (negb (Z.land joy mask =? 0)); destruct (dm_button s =? mask); cbn [negb app].
  - do 2 eexists. split; [reflexivity|]. split; [reflexivity|auto].
  - do 2 eexists. split; [reflexivity|]. split; [reflexivity|auto].
  - do 2 eexists. split; [reflexivity|]. split; [reflexivity|discriminate].
  - exists false, s. split; [reflexivity|]. split; [destruct s; reflexivity|discriminate].
Qed.
Lemma pending_repeat x b t s msgs : pending x s msgs -> pending x (dm_set_repeat b t s) msgs.
Proof. exact (fun H => H). Qed.

Lemma byte_lt b : 0 <= b < 256 -> is_byte b.
Proof. exact (fun H => H). Qed.
Ltac bytes := repeat (apply Forall_cons; [apply byte_lt; lia|]); apply Forall_nil.

(** Sending [more] after which the sounding note is the current pitch. *)
Lemma pending_send x s msgs s' more p g :
  pending x s msgs -> s' = dm_set_prog g (dm_set_pitch p (dm_set_ring (dm_ring s') s)) ->
  waits s' (stream msgs ++ stream more) -> Forall demo_msg more ->
  11 <= p <= 106 -> 0 <= g < 128 ->
  (forall y, y = None \/ y = Some (dm_pitch s) -> exists z, one_note y (meanings [] more) = Some z /\ (z = None \/ z = Some p)) ->
  pending x s' (msgs ++ more).
Proof.
  intros (W & Hrx & Hp & Hg & Hm & y & Y1 & Y2) Es Ws Fm Rp Rg Hn.
  unfold pending. rewrite stream_app. split; [exact Ws|].
  rewrite Es. cbn [dm_rx dm_pitch dm_prog dm_set_prog dm_set_pitch dm_set_ring].
  split; [exact Hrx|]. split; [exact Rp|]. split; [exact Rg|]. split; [apply Forall_app; auto|].
  destruct (Hn y Y2) as (z & Z1 & Z2). exists z. split; [|exact Z2].
  rewrite meanings_app, one_note_app, Y1. exact Z1.
Qed.

Definition m_off p := NoteOff 0 p 0.
Definition m_on p := NoteOn 0 p 127.

Lemma off_on_note p p' y : y = None \/ y = Some p ->
  exists z, one_note y (meanings [] [m_off p; m_on p']) = Some z /\ (z = None \/ z = Some p').
Proof. exists (Some p'). split; [|auto]. destruct H as [->| ->]; cbn; [reflexivity|rewrite Z.eqb_refl; reflexivity]. Qed.
Lemma off_prog_on_note p g y : y = None \/ y = Some p ->
  exists z, one_note y (meanings [] [m_off p; Program 0 g; m_on p]) = Some z /\ (z = None \/ z = Some p).
Proof. exists (Some p). split; [|auto]. destruct H as [->| ->]; cbn; [reflexivity|rewrite Z.eqb_refl; reflexivity]. Qed.
Lemma off_note p y : y = None \/ y = Some p ->
  exists z, one_note y (meanings [] [m_off p]) = Some z /\ (z = None \/ z = Some p).
Proof. exists None. split; [|auto]. destruct H as [->| ->]; cbn; [reflexivity|rewrite Z.eqb_refl; reflexivity]. Qed.

(** Release, new pitch, play. *)
Lemma block_pitch (f : Z -> Z) x s msgs : pending x s msgs -> (length (stream msgs) + 6 <= 23)%nat ->
  11 <= f (dm_pitch s) <= 106 ->
  grows 6 x (p <- gets dm_pitch ;; send_note_off p ;; let p := f p in modify (dm_set_pitch p) ;; send_note_on p) s msgs.
Proof.
  intros Hp Hl Hf. assert (W := proj1 Hp). assert (Rp : 11 <= dm_pitch s <= 106) by apply Hp.
  destruct (put_all_ok [0x80; dm_pitch s; 0] s (stream msgs) W) as (s1 & E1 & W1 & S1); [bytes|cbn; lia|].
  destruct (put_all_ok [0x90; f (dm_pitch s); 127] (dm_set_pitch (f (dm_pitch s)) s1) (stream msgs ++ [0x80; dm_pitch s; 0]) W1)
    as (s2 & E2 & W2 & S2); [bytes|rewrite app_length; cbn; lia|].
  exists s2, [m_off (dm_pitch s); m_on (f (dm_pitch s))].
  split.
  { unfold bind at 1. unfold gets. cbn [app]. unfold bind at 1. rewrite note_off_put, E1. cbn zeta.
    unfold bind, modify. rewrite note_on_put, E2. reflexivity. }
  assert (Es : s2 = dm_set_prog (dm_prog s) (dm_set_pitch (f (dm_pitch s)) (dm_set_ring (dm_ring s2) s))).
  { unfold same in S1, S2. rewrite S2, S1. reflexivity. }
  split; [|split; [cbn; lia|rewrite Es; reflexivity]].
  apply (pending_send x s msgs s2 _ (f (dm_pitch s)) (dm_prog s) Hp Es); auto.
  - rewrite <- app_assoc in W2. exact W2.
  - repeat constructor; cbn; lia.
  - apply Hp.
  - apply off_on_note.
Qed.

(** Release, new program, play. *)
Lemma block_program (f : Z -> Z) x s msgs : pending x s msgs -> (length (stream msgs) + 8 <= 23)%nat ->
  0 <= f (dm_prog s) < 128 ->
  grows 8 x (p <- gets dm_pitch ;; send_note_off p ;; g <- gets dm_prog ;; let g := f g in
             modify (dm_set_prog g) ;; send_program_change g ;; send_note_on p) s msgs.
Proof.
  intros Hp Hl Hf. assert (W := proj1 Hp). assert (Rp : 11 <= dm_pitch s <= 106) by apply Hp.
  destruct (put_all_ok [0x80; dm_pitch s; 0] s (stream msgs) W) as (s1 & E1 & W1 & S1); [bytes|cbn; lia|].
  assert (G : dm_prog s1 = dm_prog s) by (rewrite S1; reflexivity).
  destruct (put_all_ok [0xC0; f (dm_prog s)] (dm_set_prog (f (dm_prog s)) s1) (stream msgs ++ [0x80; dm_pitch s; 0]) W1)
    as (s2 & E2 & W2 & S2); [bytes|rewrite app_length; cbn; lia|].
  destruct (put_all_ok [0x90; dm_pitch s; 127] s2 _ W2) as (s3 & E3 & W3 & S3); [bytes|rewrite !app_length; cbn; lia|].
  exists s3, [m_off (dm_pitch s); Program 0 (f (dm_prog s)); m_on (dm_pitch s)].
  split.
  { unfold bind at 1. unfold gets at 1. cbn [app]. unfold bind at 1. rewrite note_off_put, E1.
    unfold bind at 1. unfold gets at 1. rewrite G. cbn zeta. unfold bind, modify.
    rewrite program_put, E2, note_on_put, E3. reflexivity. }
  assert (Es : s3 = dm_set_prog (f (dm_prog s)) (dm_set_pitch (dm_pitch s) (dm_set_ring (dm_ring s3) s))).
  { unfold same in S1, S2, S3. rewrite S3, S2, S1. reflexivity. }
  split; [|split; [cbn; lia|rewrite Es; reflexivity]].
  apply (pending_send x s msgs s3 _ (dm_pitch s) (f (dm_prog s)) Hp Es); auto.
  - rewrite <- !app_assoc in W3. exact W3.
  - repeat constructor; cbn; lia.
  - apply off_prog_on_note.
Qed.

Lemma block_again x s msgs : pending x s msgs -> (length (stream msgs) + 6 <= 23)%nat ->
  grows 6 x (p <- gets dm_pitch ;; send_note_off p ;; send_note_on p) s msgs.
Proof.
  intros Hp Hl. assert (W := proj1 Hp). assert (Rp : 11 <= dm_pitch s <= 106) by apply Hp.
  destruct (put_all_ok [0x80; dm_pitch s; 0] s (stream msgs) W) as (s1 & E1 & W1 & S1); [bytes|cbn; lia|].
  destruct (put_all_ok [0x90; dm_pitch s; 127] s1 _ W1) as (s2 & E2 & W2 & S2); [bytes|rewrite app_length; cbn; lia|].
  exists s2, [m_off (dm_pitch s); m_on (dm_pitch s)].
  split.
  { unfold bind at 1. unfold gets at 1. cbn [app]. unfold bind. rewrite note_off_put, E1, note_on_put, E2. reflexivity. }
  assert (Es : s2 = dm_set_prog (dm_prog s) (dm_set_pitch (dm_pitch s) (dm_set_ring (dm_ring s2) s))).
  { unfold same in S1, S2. rewrite S2, S1. destruct s; reflexivity. }
  split; [|split; [cbn; lia|rewrite Es; reflexivity]].
  apply (pending_send x s msgs s2 _ (dm_pitch s) (dm_prog s) Hp Es); auto.
  - rewrite <- app_assoc in W2. exact W2.
  - repeat constructor; cbn; lia.
  - apply Hp.
  - apply off_on_note.
Qed.
Lemma block_off x s msgs : pending x s msgs -> (length (stream msgs) + 3 <= 23)%nat ->
  grows 3 x (p <- gets dm_pitch ;; send_note_off p) s msgs.
Proof.
  intros Hp Hl. assert (W := proj1 Hp). assert (Rp : 11 <= dm_pitch s <= 106) by apply Hp.
  destruct (put_all_ok [0x80; dm_pitch s; 0] s (stream msgs) W) as (s1 & E1 & W1 & S1); [bytes|cbn; lia|].
  exists s1, [m_off (dm_pitch s)].
  split.
  { unfold bind at 1. unfold gets at 1. cbn [app]. rewrite note_off_put, E1. reflexivity. }
  assert (Es : s1 = dm_set_prog (dm_prog s) (dm_set_pitch (dm_pitch s) (dm_set_ring (dm_ring s1) s))).
  { unfold same in S1. rewrite S1. destruct s; reflexivity. }
  split; [|split; [cbn; lia|rewrite Es; reflexivity]].
  apply (pending_send x s msgs s1 _ (dm_pitch s) (dm_prog s) Hp Es); auto.
  - repeat constructor; cbn; lia.
  - apply Hp.
  - apply off_note.
Qed.

(** A button test followed by its block; [c] bytes at most if the button is held. *)
Lemma step_block k x joy mask blk s msgs (rest : M demo unit) : pending x s msgs ->
  (forall s1, pending x s1 msgs -> dm_pitch s1 = dm_pitch s -> dm_prog s1 = dm_prog s ->
     held joy mask = true -> grows k x blk s1 msgs) ->
  (forall s2 more, pending x s2 (msgs ++ more) -> (length (stream more) <= if held joy mask then k else 0)%nat ->
     dm_on s2 = dm_on s ->
     exists s3 more', rest s2 = Done tt s3 [] /\ pending x s3 ((msgs ++ more) ++ more') /\ dm_on s3 = dm_on s2) ->
  exists s3 more', (b <- should_repeat_button joy mask ;; when b blk ;; rest) s = Done tt s3 [] /\
     pending x s3 (msgs ++ more') /\ dm_on s3 = dm_on s.
Proof.
  intros Hp Hb Hr. destruct (button_same joy mask s) as (b & s1 & E1 & Es1 & Hh).
  assert (P1 : pending x s1 msgs) by (rewrite Es1; exact Hp).
  assert (Q := grows_when k x b blk s1 msgs P1
                 (fun H => Hb s1 P1 ltac:(rewrite Es1; reflexivity) ltac:(rewrite Es1; reflexivity) (Hh H))).
  destruct Q as (s2 & more & E2 & P2 & L2 & O2).
  assert (O1 : dm_on s1 = dm_on s) by (rewrite Es1; reflexivity).
  destruct (Hr s2 more P2) as (s3 & more' & E3 & P3 & O3); [destruct b; [rewrite Hh by reflexivity; exact L2|destruct (held joy mask); lia]|congruence|].
  exists s3, (more ++ more'). unfold bind. rewrite E1, E2, E3. split; [reflexivity|].
  split; [rewrite app_assoc; exact P3|congruence].
Qed.

Lemma vsync_ok x joy s : pending x s [] -> pad_ok joy -> dm_on s = true ->
  exists s' msgs, demo_vsync joy s = Done tt s' [] /\ pending x s' msgs /\ dm_on s' = true.
Proof.
  intros Hp (PV & PH) On. unfold demo_vsync. unfold bind at 1. unfold gets at 1. rewrite On. cbn [app].
  unfold when at 1. cbn [app].
  set (U := held joy BUTTON_UP) in *. set (D := held joy BUTTON_DOWN) in *.
  set (L := held joy BUTTON_LEFT) in *. set (R := held joy BUTTON_RIGHT) in *.
  match goal with |- exists s' msgs, match ?m s with _ => _ end = _ /\ _ => 
    cut (exists s' msgs, m s = Done tt s' [] /\ pending x s' msgs /\ dm_on s' = dm_on s) end.
  { intros (s' & msgs & E & P & O). exists s', msgs. rewrite E. split; [reflexivity|]. split; [exact P|congruence]. }
  assert (Hl : (length (stream []) = 0)%nat) by reflexivity.
  destruct (step_block 6 x joy BUTTON_UP
     (p <- gets dm_pitch ;; send_note_off p ;; let p := (if 106 <? u8 (p + 1) then 106 else u8 (p + 1)) in
      modify (dm_set_pitch p) ;; send_note_on p) s []
     (down <- should_repeat_button joy BUTTON_DOWN ;;
     when down
       (p <- gets dm_pitch ;; send_note_off p ;;
        let p := u8 (p - 1) in
        let p := if p <? 11 then 11 else p in
        modify (dm_set_pitch p) ;; send_note_on p) ;;
     right <- should_repeat_button joy BUTTON_RIGHT ;;
     when right
       (p <- gets dm_pitch ;; send_note_off p ;;
        g <- gets dm_prog ;;
        let g := u8 (g + 1) in
        let g := if 0x7F <? g then 0x7F else g in
        modify (dm_set_prog g) ;; send_program_change g ;; send_note_on p) ;;
     left <- should_repeat_button joy BUTTON_LEFT ;;
     when left
       (p <- gets dm_pitch ;; send_note_off p ;;
        g <- gets dm_prog ;;
        let g := u8 (g - 1) in
        let g := if g =? 0xFF then 0 else g in
        modify (dm_set_prog g) ;; send_program_change g ;; send_note_on p) ;;
     a <- should_repeat_button joy BUTTON_A ;;
     when a (p <- gets dm_pitch ;; send_note_off p ;; send_note_on p) ;;
     b <- should_repeat_button joy BUTTON_B ;;
     when b (p <- gets dm_pitch ;; send_note_off p)) Hp) as (s3 & m3 & E3 & P3 & O3).
  - intros s1 P1 _ _ _. apply (block_pitch (fun p => if 106 <? u8 (p + 1) then 106 else u8 (p + 1)) x s1 []); [exact P1|cbn; lia|].
    assert (Rp : 11 <= dm_pitch s1 <= 106) by apply P1. unfold u8. rewrite Z.mod_small by lia.
    destruct (Z.ltb_spec 106 (dm_pitch s1 + 1)); lia.
  - intros s2 a P2 L2 O2. fold U in L2. cbn [app] in P2. cbn [app].
    apply (step_block 6 x joy BUTTON_DOWN
      (p <- gets dm_pitch ;; send_note_off p ;; let p := (if u8 (p - 1) <? 11 then 11 else u8 (p - 1)) in
       modify (dm_set_pitch p) ;; send_note_on p) s2 a _ P2).
    + intros s4 P4 _ _ HD. fold D in HD. rewrite HD in PV. destruct U; [discriminate|].
      apply (block_pitch (fun p => if u8 (p - 1) <? 11 then 11 else u8 (p - 1)) x s4 a); [exact P4|lia|].
      assert (Rp : 11 <= dm_pitch s4 <= 106) by apply P4. unfold u8. rewrite Z.mod_small by lia.
      destruct (Z.ltb_spec (dm_pitch s4 - 1) 11); lia.
    + intros s4 b P4 L4 O4. fold D in L4.
      assert (B4 : (length (stream (a ++ b)) <= 6)%nat).
      { rewrite stream_app, app_length. destruct U, D; cbn [andb] in PV; try discriminate; lia. }
      clear L2 L4 P2. revert P4 B4. generalize (a ++ b) as q. clear a b. intros q P4 B4.
      apply (step_block 8 x joy BUTTON_RIGHT
        (p <- gets dm_pitch ;; send_note_off p ;; g <- gets dm_prog ;;
         let g := (if 0x7F <? u8 (g + 1) then 0x7F else u8 (g + 1)) in
         modify (dm_set_prog g) ;; send_program_change g ;; send_note_on p) s4 q _ P4).
      * intros s5 P5 _ _ _. apply (block_program (fun g => if 0x7F <? u8 (g + 1) then 0x7F else u8 (g + 1)) x s5 q); [exact P5|lia|].
        assert (Rg : 0 <= dm_prog s5 < 128) by apply P5. unfold u8. rewrite Z.mod_small by lia.
        destruct (Z.ltb_spec 127 (dm_prog s5 + 1)); lia.
      * intros s5 c P5 L5 O5. fold R in L5.
        apply (step_block 8 x joy BUTTON_LEFT
          (p <- gets dm_pitch ;; send_note_off p ;; g <- gets dm_prog ;;
           let g := (if u8 (g - 1) =? 0xFF then 0 else u8 (g - 1)) in
           modify (dm_set_prog g) ;; send_program_change g ;; send_note_on p) s5 (q ++ c) _ P5).
        -- intros s6 P6 _ _ HL. fold L in HL. rewrite HL in PH. cbn [andb] in PH. rewrite PH in L5.
           apply (block_program (fun g => if u8 (g - 1) =? 0xFF then 0 else u8 (g - 1)) x s6 (q ++ c)); [exact P6|rewrite stream_app, app_length; lia|].
           assert (Rg : 0 <= dm_prog s6 < 128) by apply P6. unfold u8.
           destruct (Z.eq_dec (dm_prog s6) 0) as [Z0|Z0].
           ++ rewrite Z0. change ((0 - 1) mod 256) with 255. rewrite Z.eqb_refl. lia.
           ++ rewrite Z.mod_small by lia. destruct (Z.eqb_spec (dm_prog s6 - 1) 255); lia.
        -- intros s6 d P6 L6 O6. fold L in L6.
           assert (B6 : (length (stream ((q ++ c) ++ d)) <= 14)%nat).
           { rewrite !stream_app, !app_length. destruct L, R; cbn [andb] in PH; try discriminate; lia. }
           clear L5 L6 P5. revert P6 B6. generalize ((q ++ c) ++ d) as r. clear c d. intros r P6 B6.
           apply (step_block 6 x joy BUTTON_A (p <- gets dm_pitch ;; send_note_off p ;; send_note_on p) s6 r _ P6).
           ++ intros s7 P7 _ _ _. apply block_again; [exact P7|lia].
           ++ intros s7 e P7 L7 O7.
              destruct (button_same joy BUTTON_B s7) as (bb & s8 & E8 & Es8 & _).
              assert (P8 : pending x s8 (r ++ e)) by (rewrite Es8; exact P7).
              assert (Q := grows_when 3 x bb (p <- gets dm_pitch ;; send_note_off p) s8 (r ++ e) P8).
              destruct Q as (s9 & more & E9 & P9 & _ & O9).
              { intros _. apply block_off; [exact P8|]. rewrite stream_app, app_length.
                destruct (held joy BUTTON_A); lia. }
              exists s9, more. unfold bind at 1. rewrite E8, E9. split; [reflexivity|]. split; [exact P9|].
              rewrite O9, Es8. reflexivity.
  - exists s3, m3. auto.
Qed.

(** ** The tick handler *)
Lemma tick_on joy q : forall n st s ops, dm_on s = true -> waits s q -> dm_rx s = st ->
  rx_run (reset_action []) st q = Ran ops None -> (length q < n)%nat ->
  exists s', demo_tick n [] joy s = Done ops s' [] /\ waits s' [] /\
             s' = dm_set_rx None (dm_set_ring (dm_ring s') s).
Proof.
  induction q as [|b q IH]; intros n st s ops On W Hst E Hn; (destruct n as [|n]; [cbn in Hn; lia|]);
    cbn [demo_tick]; unfold bind at 1, demo_read_ready; unfold bind at 1, gets at 1; rewrite On; cbn [negb app].
  - unfold gets at 1. rewrite (ready24 _ _ W). cbn [app]. unfold bind, get. cbn in E. injection E as <- Est.
    rewrite Hst, Est. exists s. split; [reflexivity|]. split; [exact W|]. rewrite <- Est, <- Hst. destruct s; reflexivity.
  - unfold gets at 1. rewrite (ready24 _ _ W). cbn [app]. unfold bind at 1, get. cbn [app].
    destruct (read24 _ _ _ W) as (r' & Er & R'). unfold bind at 1, demo_read. rewrite Er.
    cbn [rx_run] in E. rewrite Hst. destruct (rx_byte (reset_action []) st b) as [o1 st1|f]; [|discriminate].
    destruct (rx_run (reset_action []) st1 q) as [o2 st2|f] eqn:E2; [|discriminate]. injection E as <- ->.
    destruct (IH n st1 (dm_set_rx st1 (dm_set_ring r' s)) o2) as (s' & E' & W' & S'); auto.
    { cbn in Hn. lia. }
    unfold bind at 1, modify. unfold bind at 1. rewrite E'. cbn [app ret].
    exists s'. split; [reflexivity|]. split; [exact W'|]. rewrite S'. reflexivity.
Qed.

Lemma tick_on_msgs joy x s msgs : dm_on s = true -> pending x s msgs ->
  exists s' y, demo_tick 32 [] joy s = Done (meanings [] msgs) s' [] /\ Forall playable (meanings [] msgs) /\
    one_note x (meanings [] msgs) = Some y /\ pending y s' [] /\ dm_on s' = true.
Proof.
  intros On (W & Hrx & Hp & Hg & Hm & y & Y1 & Y2).
  assert (Hs : startup_ok []) by (split; constructor).
  assert (E := c03 [] msgs Hs (demo_msgs_ok msgs Hm)). unfold receive in E.
  change (stream []) with (@nil Z) in E. change (meanings [] []) with (@nil mop) in E.
  assert (Hl : (length (stream msgs) <= 23)%nat).
  { destruct W as (b & _ & _ & Hr). unfold repr in Hr. lia. }
  destruct (tick_on joy (stream msgs) 32 None s (meanings [] msgs) On W Hrx E ltac:(lia)) as (s' & Et & Ws & Es).
  exists s', y. split; [exact Et|]. split; [apply demo_msgs_playable; exact Hm|]. split; [exact Y1|].
  split; [|rewrite Es; exact On]. unfold pending. split; [exact Ws|]. rewrite Es.
  cbn [dm_rx dm_pitch dm_prog dm_set_rx dm_set_ring].
  split; [reflexivity|]. split; [exact Hp|]. split; [exact Hg|]. split; [constructor|]. exists y. auto.
Qed.

Lemma bind_start A B (m : M demo A) (k : A -> M demo B) s s' : m s = m s' -> bind m k s = bind m k s'.
Proof. unfold bind. intros ->. reflexivity. Qed.
Lemma tick_unfold joy s : demo_tick 32 [] joy s =
  (ready <- demo_read_ready joy ;;
   s <- get ;;
   if ready then
     b <- demo_read ;;
     match rx_byte (reset_action []) (dm_rx s) b with
     | Failed f => fail f
     | Ran ops st => modify (dm_set_rx st) ;; rest <- demo_tick 31 [] joy ;; ret (ops ++ rest)
     end
   else match dm_rx s with None => ret [] | Some _ => fail F_hang end) s.
Proof. reflexivity. Qed.

(** Before the A button: nothing. *)
Definition asleep (s : demo) : Prop := dm_on s = false /\ dm_played s = false /\ pending None s [].

Lemma tick_asleep joy s : asleep s -> held joy BUTTON_A = false -> demo_tick 32 [] joy s = Done [] s [].
Proof.
  intros (On & _ & P) H. unfold held in H. rewrite tick_unfold. unfold bind at 1.
  assert (R : demo_read_ready joy s = Done false s []).
  { unfold demo_read_ready. unfold bind at 1, gets at 1. rewrite On, H. reflexivity. }
  rewrite R. unfold bind, get. rewrite (proj1 (proj2 P)). reflexivity.
Qed.

(** The first press of A. *)
Lemma tick_wakes joy s : asleep s -> held joy BUTTON_A = true ->
  exists s' ops y, demo_tick 32 [] joy s = Done ops s' [] /\ Forall playable ops /\
    one_note None ops = Some y /\ pending y s' [] /\ dm_on s' = true.
Proof.
  intros (On & Pl & P) H.
  set (s0 := dm_set_on true s).
  assert (P0 : pending None s0 []) by exact P. assert (W0 := proj1 P0). change (stream []) with (@nil Z) in W0.
  assert (Rp : 11 <= dm_pitch s0 <= 106) by apply P0.
  destruct (put_all_ok [0xB0; 83; 0x7F; 0x90; dm_pitch s0; 0x7F] s0 [] W0) as (s1 & E1 & W1 & S1); [bytes|cbn; lia|].
  set (s2 := dm_set_played true s1).
  assert (P2 : pending None s2 [Control 0 83 127; m_on (dm_pitch s0)]).
  { split; [exact W1|]. unfold same in S1. unfold s2. rewrite S1.
    cbn [dm_rx dm_pitch dm_prog dm_set_played dm_set_ring].
    split; [apply P0|]. split; [exact Rp|]. split; [apply P0|].
    split; [repeat apply Forall_cons; try apply Forall_nil; unfold m_on, demo_msg; lia|]. exists (Some (dm_pitch s0)). split; [reflexivity|auto]. }
  assert (On2 : dm_on s2 = true) by (unfold s2, same in *; rewrite S1; reflexivity).
  destruct (tick_on_msgs joy None s2 _ On2 P2) as (s3 & y & E3 & F3 & Y3 & P3 & On3).
  exists s3, (meanings [] [Control 0 83 127; m_on (dm_pitch s0)]), y.
  split; [|auto].
  (* the first turn on [s] equals the first turn on [s2] *)
  rewrite <- E3. rewrite !tick_unfold.
  assert (R1 : demo_read_ready joy s = Done (ring_buf_can_read (dm_ring s2)) s2 []).
  { unfold demo_read_ready. unfold bind at 1, gets at 1. rewrite On. cbn [negb app].
    unfold held in H. rewrite H. unfold bind at 1, modify at 1. fold s0. cbn [app].
    unfold bind at 1, gets at 1. change (dm_played s0) with (dm_played s). rewrite Pl. cbn [negb app].
    unfold when.
    assert (K : (put_byte 0xB0 ;; put_byte 83 ;; put_byte 0x7F ;; put_byte 0x90 ;;
                 p <- gets dm_pitch ;; put_byte p ;; put_byte 0x7F ;; modify (dm_set_played true)) s0
                = Done tt s2 []).
    { clear - E1. cbn [put_all] in E1. unfold bind, gets, modify, ret in *.
      assert (PP : forall b t, match put_byte b t with Done _ t' _ => dm_pitch t' = dm_pitch t | _ => True end).
      { intros b t. unfold put_byte. destruct (ring_buf_write b (dm_ring t)); [reflexivity|exact I]. }
      destruct (put_byte 176 s0) as [[] t1 o1|] eqn:T1; [|discriminate].
      destruct (put_byte 83 t1) as [[] t2 o2|] eqn:T2; [|discriminate].
      destruct (put_byte 127 t2) as [[] t3 o3|] eqn:T3; [|discriminate].
      destruct (put_byte 144 t3) as [[] t4 o4|] eqn:T4; [|discriminate].
      assert (Q : dm_pitch t4 = dm_pitch s0).
      { assert (A1 := PP 176 s0). rewrite T1 in A1. assert (A2 := PP 83 t1). rewrite T2 in A2.
        assert (A3 := PP 127 t2). rewrite T3 in A3. assert (A4 := PP 144 t3). rewrite T4 in A4. congruence. }
      rewrite Q. destruct (put_byte (dm_pitch s0) t4) as [[] t5 o5|] eqn:T5; [|discriminate].
      destruct (put_byte 127 t5) as [[] t6 o6|] eqn:T6; [|discriminate].
      injection E1 as -> Eo. unfold s2. cbn [app].
      destruct o1; [|discriminate]. destruct o2; [|discriminate]. destruct o3; [|discriminate].
      destruct o4; [|discriminate]. destruct o5; [|discriminate]. destruct o6; [|discriminate]. reflexivity. }
    unfold bind at 1. rewrite K. unfold gets. reflexivity. }
  assert (R2 : demo_read_ready joy s2 = Done (ring_buf_can_read (dm_ring s2)) s2 []).
  { unfold demo_read_ready. unfold bind at 1, gets at 1. rewrite On2. cbn [negb app]. reflexivity. }
  apply bind_start. congruence.
Qed.

(** ** One turn, any history *)
Definition demo_inv (x : option Z) (s : demo) : Prop :=
  (x = None /\ asleep s) \/ (dm_on s = true /\ exists msgs, pending x s msgs).

Lemma turn_inv x s t : demo_inv x s -> turn_ok t ->
  exists ops s' y, demo_turn t s = Done ops s' [] /\ Forall playable ops /\
    one_note x ops = Some y /\ demo_inv y s'.
Proof.
  destruct t as [j1 fr j2]. intros I Ht. cbn in Ht.
  assert (T : exists ops s1 y, demo_tick 32 STARTUP_MIDI_SEQUENCE j1 s = Done ops s1 [] /\ Forall playable ops /\
            one_note x ops = Some y /\ ((y = None /\ asleep s1) \/ (dm_on s1 = true /\ pending y s1 []))).
  { unfold STARTUP_MIDI_SEQUENCE. destruct I as [(-> & A)|(On & msgs & P)].
    - destruct (held j1 BUTTON_A) eqn:H.
      + destruct (tick_wakes j1 s A H) as (s' & ops & y & E & F & Y & P & On). exists ops, s', y. auto 7.
      + exists [], s, None. rewrite (tick_asleep j1 s A H). repeat split; auto.
    - destruct (tick_on_msgs j1 x s msgs On P) as (s' & y & E & F & Y & P' & On').
      exists (meanings [] msgs), s', y. auto 7. }
  destruct T as (ops & s1 & y & E & F & Y & C). cbn [demo_turn]. unfold bind at 1. rewrite E.
  destruct fr; unfold when.
  - destruct C as [(-> & A)|(On & P)].
    + exists ops, s1, None. split.
      { unfold bind at 1, demo_vsync. unfold bind at 1, gets at 1. rewrite (proj1 A). reflexivity. }
      split; [exact F|]. split; [exact Y|]. left. auto.
    + destruct (vsync_ok y j2 s1 P Ht On) as (s2 & msgs & E2 & P2 & On2).
      exists ops, s2, y. unfold bind. rewrite E2. split; [reflexivity|]. split; [exact F|]. split; [exact Y|].
      right. split; [exact On2|]. exists msgs. exact P2.
  - exists ops, s1, y. split; [reflexivity|]. split; [exact F|]. split; [exact Y|].
    destruct C as [C|(On & P)]; [left; exact C|right]. split; [exact On|]. exists []. exact P.
Qed.

Lemma run_inv l : forall x s, demo_inv x s -> Forall turn_ok l ->
  exists ops s' y, demo_run l s = Done ops s' [] /\ Forall playable ops /\ one_note x ops = Some y.
Proof.
  induction l as [|t l IH]; intros x s I H.
  - exists [], s, x. repeat split. constructor.
  - inversion H; subst. destruct (turn_inv x s t I H2) as (o1 & s1 & y & E1 & F1 & Y1 & I1).
    destruct (IH y s1 I1 H3) as (o2 & s2 & z & E2 & F2 & Y2).
    exists (o1 ++ o2), s2, z. cbn [demo_run]. unfold bind, ret. rewrite E1, E2.
    split; [reflexivity|]. split; [apply Forall_app; auto|]. rewrite one_note_app, Y1. exact Y2.
Qed.

Lemma init_inv arr : (24 <= length arr)%nat -> demo_inv None (demo_init arr).
Proof.
  intros H. left. split; [reflexivity|]. split; [reflexivity|]. split; [reflexivity|].
  split; [apply (ring_init_repr arr 24); lia|]. cbn. repeat split; try lia; try constructor.
  exists None. auto.
Qed.

Lemma c61 arr l : (24 <= length arr)%nat -> Forall turn_ok l ->
  exists ops s' y, demo_run l (demo_init arr) = Done ops s' [] /\ Forall playable ops /\ one_note None ops = Some y.
Proof. intros H. apply run_inv. apply init_inv. exact H. Qed.

(** Left and right together with up and A: the output no longer fits. *)
Lemma c61_hang : demo_run [Turn 0x40 true 0x4D; Turn 0 false 0] (demo_init (repeat 0 24)) = Fault F_hang.
Proof. vm_compute. reflexivity. Qed.
Lemma c61_refuted : ~ (forall l, exists ops s' o, demo_run l (demo_init (repeat 0 24)) = Done ops s' o).
Proof. intros H. destruct (H [Turn 0x40 true 0x4D; Turn 0 false 0]) as (a & b & c & E). rewrite c61_hang in E. discriminate. Qed.

Lemma c61_example : exists s',
  demo_run [Turn 0 true 0; Turn 0x40 true 0x40; Turn 0x40 true 0x59; Turn 0 true 0; Turn 0 false 0] (demo_init (repeat 0 24))
  = Done [MCc 0 83 127; MNoteOn 0 69 127; MNoteOff 0 69; MNoteOn 0 69 127;
          MNoteOff 0 69; MNoteOn 0 70 127; MNoteOff 0 70; MProgram 0 1; MNoteOn 0 70 127;
          MNoteOff 0 70; MNoteOn 0 70 127; MNoteOff 0 70] s' [].
Proof. eexists. vm_compute. reflexivity. Qed.
