(** P_ModemLine.v -- the line driven by the transmitter is a line of packets. *)
From Verif Require Import Base M_Pio M_Clock S_Dsp S_Pio S_Core1 S_Front S_Analog S_PioRate S_PioTime S_ModemLine P_Containers P_Pio P_PioTime.

Definition sig_of (t0 amp a : Z) (m : list Z) : signal := SIGNAL (t0 + pio_cycle_time * (a + 1)) pio_cycle_time amp (hd 0 m) (map (pair 0%nat) (tl m)).

Inductive sent_sigs (t0 amp : Z) : Z -> list Z -> list (list Z) -> list signal -> Prop :=
| SSnil pos : sent_sigs t0 amp pos [] [] []
| SScons pos a g rest m t sg : length m = S (length g) -> pos + 1408 <= a ->
    (forall k x, nth_error g k = Some x -> x <= a + char_cycles * (Z.of_nat k + 1)) ->
    sent_sigs t0 amp (a + 1 + char_cycles * Z.of_nat (length m)) rest t sg ->
    sent_sigs t0 amp pos (a :: g ++ rest) (m :: t) (sig_of t0 amp a m :: sg).

Lemma sig_line t0 amp a m : m <> [] -> sg_line (sig_of t0 amp a m) = flat_map char_wave_short m.
Proof.
  destruct m as [|b m]; [congruence|]. intros _. unfold sg_line, sig_of. cbn [sg_first sg_rest hd tl flat_map waves repeat app]. f_equal.
  induction m as [|c m IH]; cbn [map waves repeat app flat_map]; auto. f_equal. exact IH.
Qed.
Lemma short_len b : length (char_wave_short b) = 175%nat.
Proof.
  unfold char_wave_short. rewrite firstn_length. assert (X : forall l, length (flat_map symbol_wave l) = (16 * length l)%nat).
  { induction l as [|x l IH]; cbn [flat_map]; auto. rewrite app_length, IH. unfold symbol_wave. rewrite app_length, !repeat_length. cbn [length]. lia. }
  unfold char_wave. rewrite X. unfold char_symbols. assert (Y : forall l s, length (ami s l) = length l) by (induction l as [|[|] l IH]; intros s; cbn; auto).
  rewrite Y. unfold char_bits. cbn [length]. rewrite !app_length. unfold data_bits. rewrite map_length, seq_length. reflexivity.
Qed.
Lemma flat_len m : length (flat_map char_wave_short m) = (175 * length m)%nat.
Proof. induction m as [|b m IH]; cbn [flat_map length]; auto. rewrite app_length, short_len, IH. lia. Qed.
Lemma sig_bytes t0 amp a m : m <> [] -> sg_bytes (sig_of t0 amp a m) = m.
Proof. destruct m as [|b m]; [congruence|]. intros _. unfold sg_bytes, sig_of. cbn [sg_first sg_rest hd tl]. rewrite map_map. cbn. rewrite map_id. reflexivity. Qed.
Lemma sig_end t0 amp a m : m <> [] -> sg_end (sig_of t0 amp a m) = t0 + pio_cycle_time * (a + 1 + 175 * Z.of_nat (length m)).
Proof. intros H. unfold sg_end. rewrite sig_line, flat_len by auto. cbn [sig_of sg_start sg_cycle]. lia. Qed.

Lemma sent_as_sigs t0 amp ms : forall pos till arr, sent_as pos till arr ms -> exists sg, sent_sigs t0 amp pos arr ms sg.
Proof.
  induction ms as [|m t IH]; intros pos till arr H; cbn [sent_as] in H.
  - destruct H as (-> & _). eexists. constructor.
  - destruct H as (_ & a & g & rest & -> & L & P & G & H). destruct (IH _ _ _ H) as (sg & S). eexists. constructor; eauto.
Qed.

(** What the transmitter sends for these arrivals. *)
Lemma sent_waves t0 amp pos arr ms sg : sent_sigs t0 amp pos arr ms sg -> forall ready, ready <= pos + 1409 ->
  forall p, p <= pos + 1409 ->
  match arr with [] => True | a :: _ => Z.max (a + 1) ready = a + 1 end /\
  waves (combine (pauses p (starts ready arr)) (concat ms)) =
  match ms, arr with m :: t, a :: g => repeat 0 (Z.to_nat (a + 1 - p)) ++ flat_map char_wave_short m ++
     waves (combine (pauses (a + 1 + char_cycles * Z.of_nat (length m)) (starts (a + 1 + char_cycles * Z.of_nat (length m)) (skipn (length m) arr))) (concat t)) | _, _ => [] end.
Proof.
  intros H. destruct H as [pos|pos a g rest m t sg L P G H]; intros ready Hr p Hp; [split; [exact I|reflexivity]|].
  split; [lia|]. rewrite L. replace (skipn (S (length g)) (a :: g ++ rest)) with rest by (cbn [skipn]; rewrite skipn_app, skipn_all2, Nat.sub_diag by lia; reflexivity).
  cbn [concat].
  assert (E : starts ready (a :: g ++ rest) = map (fun k => (a + 1) + char_cycles * Z.of_nat k) (seq 0 (S (length g))) ++ starts (a + 1 + char_cycles * Z.of_nat (S (length g))) rest).
  { rewrite (starts_weaken ready (a + 1) a (g ++ rest)) by lia. change (a :: g ++ rest) with ((a :: g) ++ rest).
    rewrite (starts_burst (a :: g) (a + 1) rest (a + 1)); auto. intros [|k] x Hk; cbn [nth_error] in Hk; [injection Hk as ->; unfold char_cycles; lia|]. specialize (G k x Hk). lia. }
  rewrite E, pauses_burst. rewrite app_comm_cons, combine_app by (cbn [length]; rewrite repeat_length; auto). rewrite waves_cat.
  destruct m as [|b m]; [discriminate|]. cbn [combine waves flat_map]. rewrite <- !app_assoc. f_equal. f_equal. f_equal.
  injection L as L. rewrite <- (app_nil_r (repeat 0%nat (length g))), waves_burst; auto.
Qed.

Lemma nth_rep0 n : forall k (l : list Z), (k < n)%nat -> nth k (repeat 0 n ++ l) 0 = 0.
Proof. induction n as [|n IH]; intros [|k] l H; cbn; auto; try lia. apply IH. lia. Qed.

Lemma pct_pos : 0 < pio_cycle_time. Proof. reflexivity. Qed.

Lemma volts_eq t0 amp x : forall pos arr ms sg, sent_sigs t0 amp pos arr ms sg -> t0 <= x -> forall p, p <= (x - t0) / pio_cycle_time -> p <= pos ->
  volts sg x = amp * nth (Z.to_nat ((x - t0) / pio_cycle_time - p)) (waves (combine (pauses p (starts p arr)) (concat ms))) 0.
Proof.
  set (c := (x - t0) / pio_cycle_time). pose proof pct_pos as PP.
  assert (D : pio_cycle_time * c <= x - t0 < pio_cycle_time * c + pio_cycle_time).
  { unfold c. pose proof (Z.div_mod (x - t0) pio_cycle_time ltac:(lia)). pose proof (Z.mod_pos_bound (x - t0) pio_cycle_time PP). lia. }
  intros pos arr ms sg H Hx. induction H as [pos|pos a g rest m t sg L P G H IH]; intros p Hc Hp.
  - cbn [volts starts pauses combine waves]. destruct (Z.to_nat (c - p)); cbn [nth]; lia.
  - assert (Hm : m <> []) by (destruct m; [discriminate|congruence]).
    pose proof (SScons t0 amp pos a g rest m t sg L P G H) as HS.
    destruct (sent_waves t0 amp pos (a :: g ++ rest) (m :: t) _ HS p ltac:(lia) p ltac:(lia)) as (_ & W). cbv beta iota in W. rewrite W. clear W HS.
    replace (skipn (length m) (a :: g ++ rest)) with rest by (rewrite L; cbn [skipn]; rewrite skipn_app, skipn_all2, Nat.sub_diag by lia; reflexivity).
    cbn [volts]. rewrite sig_end, sig_line by auto. cbn [sig_of sg_start sg_amp sg_cycle]. change char_cycles with 175 in *.
    destruct (Z_lt_le_dec c (a + 1)) as [C1|C1].
    + assert (X1 : (t0 + pio_cycle_time * (a + 1) <=? x) = false) by (apply Z.leb_gt; nia). rewrite X1. cbn [andb].
      rewrite nth_rep0 by lia. rewrite Z.mul_0_r.
      (* no later signal has begun either *)
      assert (G2 : forall pos arr ms sg, sent_sigs t0 amp pos arr ms sg -> c < pos + 1408 -> volts sg x = 0).
      { clear IH. intros pos' arr' ms' sg' HH. induction HH as [|pos' a' g' rest' m' t' sg' L' P' G' HH' IH']; intros CC; [reflexivity|]. cbn [volts sig_of sg_start].
        assert (X2 : (t0 + pio_cycle_time * (a' + 1) <=? x) = false) by (apply Z.leb_gt; nia). rewrite X2. cbn [andb]. apply IH'. change char_cycles with 175. lia. }
      apply (G2 _ _ _ _ H). lia.
    + assert (X1 : (t0 + pio_cycle_time * (a + 1) <=? x) = true) by (apply Z.leb_le; nia). rewrite X1. cbn [andb].
      rewrite app_nth2 by (rewrite repeat_length; lia). rewrite repeat_length.
      destruct (Z_lt_le_dec c (a + 1 + 175 * Z.of_nat (length m))) as [C2|C2].
      * assert (X2 : (x <? t0 + pio_cycle_time * (a + 1 + 175 * Z.of_nat (length m))) = true) by (apply Z.ltb_lt; nia). rewrite X2.
        rewrite app_nth1 by (rewrite flat_len; lia). f_equal. f_equal.
        assert (Y : (x - (t0 + pio_cycle_time * (a + 1))) / pio_cycle_time = c - (a + 1)).
        { symmetry. apply (Z.div_unique _ _ _ (x - t0 - pio_cycle_time * c)); [left; lia|]. lia. }
        rewrite Y. lia.
      * assert (X2 : (x <? t0 + pio_cycle_time * (a + 1 + 175 * Z.of_nat (length m))) = false) by (apply Z.ltb_ge; nia). rewrite X2.
        rewrite app_nth2 by (rewrite flat_len; lia). rewrite flat_len. rewrite (IH (a + 1 + 175 * Z.of_nat (length m)) ltac:(lia) ltac:(lia)).
        do 2 f_equal. lia.
Qed.

Lemma waves_bound t0 amp pos arr ms sg : sent_sigs t0 amp pos arr ms sg -> forall till p, sent_as pos till arr ms -> p <= pos ->
  p + Z.of_nat (length (waves (combine (pauses p (starts p arr)) (concat ms)))) <= till.
Proof.
  intros H. induction H as [pos|pos a g rest m t sg L P G H IH]; intros till p S Hp.
  - cbn [sent_as] in S. cbn. lia.
  - pose proof (SScons t0 amp pos a g rest m t sg L P G H) as HS.
    destruct (sent_waves t0 amp pos (a :: g ++ rest) (m :: t) _ HS p ltac:(lia) p ltac:(lia)) as (_ & W). cbv beta iota in W. rewrite W. clear W HS.
    replace (skipn (length m) (a :: g ++ rest)) with rest by (rewrite L; cbn [skipn]; rewrite skipn_app, skipn_all2, Nat.sub_diag by lia; reflexivity).
    rewrite !app_length, repeat_length, flat_len. cbn [sent_as] in S. destruct S as (_ & a2 & g2 & r2 & E & L2 & _ & _ & S).
    injection E as -> E. assert (rest = r2) as ->.
    { assert (Lg : length g = length g2) by lia. clear - E Lg. revert g2 E Lg. induction g as [|y g IHg]; intros [|z g2] E Lg; try discriminate; cbn in E; auto. injection E as _ E. injection Lg as Lg. eauto. }
    pose proof (IH till (a2 + 1 + char_cycles * Z.of_nat (length m)) S ltac:(lia)). change char_cycles with 175 in *. lia.
Qed.

Lemma nth_zeros (l : list Z) n k : nth k (l ++ repeat 0 n) 0 = nth k l 0.
Proof.
  destruct (Nat.lt_ge_cases k (length l)) as [H|H]; [rewrite app_nth1 by auto; reflexivity|].
  rewrite app_nth2 by auto. rewrite (nth_overflow l) by auto. generalize (k - length l)%nat. clear. induction n as [|n IH]; intros [|k]; cbn; auto.
Qed.
Lemma nth_firstn_lt (l : list Z) : forall n k, (k < n)%nat -> nth k (firstn n l) 0 = nth k l 0.
Proof. induction l as [|x l IH]; intros [|n] [|k] H; cbn; auto; try lia. apply IH. lia. Qed.

Lemma driven_volts t0 amp sched ms pos till sg x : words (concat sched) (concat ms) -> sent_sigs t0 amp pos (arrivals 0 sched) ms sg ->
  sent_as pos till (arrivals 0 sched) ms -> 0 <= pos -> till <= Z.of_nat (length sched) ->
  driven t0 amp (fst (tx_run pio_init sched)) x = volts sg x.
Proof.
  intros Hw HS Ha Hp Ht. unfold driven. pose proof pct_pos as PP. destruct (Z.ltb_spec x t0) as [C|C].
  - symmetry. clear - HS Hp C PP. revert Hp. induction HS as [|pos a g rest m t sg L P G H IH]; intros Hp; [reflexivity|]. cbn [volts sig_of sg_start].
    assert (X2 : (t0 + pio_cycle_time * (a + 1) <=? x) = false) by (apply Z.leb_gt; nia). rewrite X2. cbn [andb]. apply IH. unfold char_cycles. lia.
  - assert (C0 : 0 <= (x - t0) / pio_cycle_time) by (apply Z.div_pos; lia).
    rewrite (volts_eq t0 amp x pos (arrivals 0 sched) ms sg HS C 0 C0 Hp). rewrite Z.sub_0_r. f_equal.
    rewrite (tx_exact sched (concat ms) Hw).
    assert (E : line_of (starts first_ready (arrivals 0 sched)) (concat ms) = waves (combine (pauses 0 (starts 0 (arrivals 0 sched))) (concat ms))).
    { unfold line_of. do 3 f_equal. destruct HS as [|pos a g rest m t sg L P G H]; [reflexivity|]. apply starts_weaken. unfold first_ready. lia. }
    rewrite E. pose proof (waves_bound _ _ _ _ _ _ HS till 0 Ha Hp) as B.
    set (w := waves _) in *. set (k := Z.to_nat _). clearbody w k. destruct (Nat.lt_ge_cases k (length sched)) as [K|K].
    + rewrite nth_firstn_lt by auto. apply nth_zeros.
    + rewrite nth_overflow by (rewrite firstn_length; lia). rewrite nth_overflow by lia. reflexivity.
Qed.

Lemma sigs_ok t0 amp n pos arr ms sg : sent_sigs t0 amp pos arr ms sg -> strong n (Z.abs amp) -> Forall (fun m => (length m <= 31)%nat) ms -> Forall (fun b => 0 <= b < 256) (concat ms) ->
  Forall (signal_ok sample_time n) sg /\ map sg_bytes sg = ms /\ Forall (fun u => (length (sg_bytes u) <= 31)%nat) sg.
Proof.
  intros H St. induction H as [pos|pos a g rest m t sg L P G H IH]; intros H31 Hb; [split; [constructor|split; [reflexivity|constructor]]|].
  inversion H31 as [|m0 t1 Hm Ht]; subst m0 t1. cbn [concat] in Hb. apply Forall_app in Hb as (Hb1 & Hb2). destruct (IH Ht Hb2) as (I1 & I2 & I3).
  assert (Hn : m <> []) by (destruct m; [discriminate|congruence]). pose proof (sig_bytes t0 amp a m Hn) as EB.
  split; [|split]; [constructor; auto|cbn [map]; rewrite EB, I2; reflexivity|constructor; [rewrite EB; auto|auto]].
  unfold signal_ok. rewrite EB, sig_line, flat_len by auto. cbn [sig_of sg_amp sg_cycle].
  change sample_time with 628000. change pio_cycle_time with 624999. split; [exact St|]. split; [lia|]. split; [lia|]. split; [exact Hb1|]. lia.
Qed.
Lemma sigs_spaced t0 amp last from fin pos arr ms sg : sent_sigs t0 amp pos arr ms sg -> forall till, sent_as pos till arr ms -> 
  from <= t0 + pio_cycle_time * pos -> t0 + pio_cycle_time * till + last <= fin -> spaced last from fin sg.
Proof.
  intros H. revert from. induction H as [pos|pos a g rest m t sg L P G H IH]; intros from till S F T; cbn [spaced].
  - cbn [sent_as] in S. pose proof pct_pos. nia.
  - assert (Hn : m <> []) by (destruct m; [discriminate|congruence]). rewrite sig_end by auto. cbn [sig_of sg_start]. change pio_cycle_time with 624999 in *. split; [lia|].
    cbn [sent_as] in S. destruct S as (_ & a2 & g2 & r2 & E & L2 & _ & _ & S).
    injection E as -> E. assert (rest = r2) as ->.
    { assert (Lg : length g = length g2) by lia. clear - E Lg. revert g2 E Lg. induction g as [|y g IHg]; intros [|z g2] E Lg; try discriminate; cbn in E; auto. injection E as _ E. injection Lg as Lg. eauto. }
    apply (IH _ till S); [unfold char_cycles; lia|exact T].
Qed.
Lemma sent_as_31 ms : forall pos till arr, sent_as pos till arr ms -> Forall (fun m => (length m <= 31)%nat) ms.
Proof. induction ms as [|m t IH]; intros pos till arr H; constructor; cbn [sent_as] in H; [tauto|]. destruct H as (_ & a & g & rest & _ & _ & _ & _ & H). eauto. Qed.
Lemma words_bytes l bs : words l bs -> Forall (fun b => 0 <= b < 256) bs.
Proof. induction 1 as [|b w bs l H _ IH]; constructor; auto. destruct H. auto. Qed.

(** The line driven by the transmitter of a modem carries these packets. *)
Lemma modem_line t0 amp sched ms pos till n q N : words (concat sched) (concat ms) -> sent_as pos till (arrivals 0 sched) ms -> 0 <= pos -> till <= Z.of_nat (length sched) ->
  strong n (Z.abs amp) -> conversion_time * Z.of_nat q <= t0 + pio_cycle_time * pos -> t0 + pio_cycle_time * till + 410 * conversion_time <= conversion_time * Z.of_nat N ->
  exists sg, map sg_bytes sg = ms /\ Forall (signal_ok sample_time n) sg /\ spaced (410 * conversion_time) (conversion_time * Z.of_nat q) (conversion_time * Z.of_nat N) sg /\
    Forall (fun u => (length (sg_bytes u) <= 31)%nat) sg /\ converted_of (driven t0 amp (fst (tx_run pio_init sched))) conversion_time N = converted conversion_time N sg.
Proof.
  intros Hw Ha Hp Ht St H0 H1. destruct (sent_as_sigs t0 amp ms _ _ _ Ha) as (sg & HS). exists sg.
  destruct (sigs_ok t0 amp n _ _ _ _ HS St (sent_as_31 _ _ _ _ Ha) (words_bytes _ _ Hw)) as (I1 & I2 & I3).
  split; [exact I2|]. split; [exact I1|]. split; [exact (sigs_spaced t0 amp _ _ _ _ _ _ _ HS till Ha H0 H1)|]. split; [exact I3|].
  unfold converted_of, converted. apply map_ext. intros i. apply (driven_volts t0 amp sched ms pos till sg _ Hw HS Ha Hp Ht).
Qed.
