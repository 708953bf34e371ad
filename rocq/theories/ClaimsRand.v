(** ClaimsRand.v - the property statements of PropsRand.v with their proofs. *)
From Verif Require Import Base BaseFacts Bip39 SpecBip39 Bip39Facts GoRand SpecRand GoRandFacts.
From Coq Require Import ZifyBool ZifyNat ZifyN.

Lemma C100_read_l : forall s fuel b b' n e, source_ok s -> (0 < length b)%nat -> RandRead fuel s b = Some (b', n, e) ->
  length b' = length b /\ (n <= length b)%nat /\ (e = None <-> n = length b) /\
  (e = None -> answered s (length b) b' \/ (forall w, ~ answered s (length b) w) /\ s_open s = None /\ delivers (s_file s) 0 (length b) b' None) /\
  (forall x, e = Some x -> (forall w, ~ answered s (length b) w) /\
     (s_open s = Some x \/ s_open s = None /\ exists w y, delivers (s_file s) 0 (length b) w (Some y) /\ firstn n b' = w /\ n = length w /\ Some x = eof n (Some y))) /\
  exists k, (k <= length b)%nat /\ skipn k b' = skipn k b.
Proof.
exact RandRead_spec.
Qed.

Lemma C100_ends_l : forall s b, source_ok s -> progress (s_file s) -> exists r, RandRead (length b) s b = Some r.
Proof.
exact RandRead_ends.
Qed.

Lemma C100_ends_refuted_l : forall s b, s_max s = None -> s_open s = None -> (forall c m, s_file s c m = ([], None) \/ s_file s c m = ([], Some EAGAIN)) -> (0 < length b)%nat ->
  forall fuel, RandRead fuel s b = None.
Proof.
intros s b M O D L fuel. unfold RandRead. destruct b as [|o b0] eqn:Eb; [cbn in L; lia|]. rewrite <- Eb in *. unfold rand_reader. rewrite M, O, (ReadFull_stuck _ D) by exact L. reflexivity.
Qed.

Lemma C100_NewSeed_l : forall fuel s seed e, source_ok s -> NewSeed32 fuel s = Some (seed, e) ->
  length seed = 256%nat /\
  (e = None -> answered s 256 seed \/ s_open s = None /\ delivers (s_file s) 0 256 seed None) /\
  (e <> None -> (forall w, ~ answered s 256 w) /\ (forall w, s_open s = None -> ~ delivers (s_file s) 0 256 w None) /\ exists k, (k <= 256)%nat /\ seed = firstn k seed ++ repeat x00 (256 - k)).
Proof.
intros fuel s seed e OK E. unfold NewSeed32 in E. destruct (RandRead fuel s (repeat x00 256)) as [[[b n] e']|] eqn:R; [|discriminate E]. injection E as -> ->.
pose proof R as R'. apply RandRead_spec in R'; [|exact OK|rewrite repeat_length; lia]. rewrite repeat_length in R'. destruct R' as (A & _ & _ & C & D & k & Lk & K).
split; [exact A|]. split; [intros N; destruct (C N) as [C1|(_ & C1)]; [left|right]; exact C1|]. intros N. destruct e as [x|]; [|contradiction]. destruct (D x eq_refl) as [D1 D2]. split; [exact D1|]. split.
- intros w O DD. destruct D2 as [D2|(_ & w' & y & D2 & _)]; [congruence|]. destruct (delivers_det _ _ _ _ _ DD _ _ D2) as [_ C2]. discriminate C2.
- exists k. split; [exact Lk|]. apply zeros_prefix; assumption.
Qed.

Lemma C100_seed_size_refuted_l : forall fuel s seed e, source_ok s -> NewSeed32 fuel s = Some (seed, e) -> ~ 128 <= 8 * Z.of_nat (length seed) <= 512.
Proof.
intros fuel s seed e OK E. destruct (C100_NewSeed_l fuel s seed e OK E) as [-> _]. lia.
Qed.

Lemma bit_size_iff n : validateEntropyBitSize n = None <-> In n [128; 160; 192; 224; 256].
Proof.
  unfold validateEntropyBitSize. split.
  - intros V. destruct (Z.rem n 32 =? 0) eqn:R; [|discriminate V]. destruct (Z.ltb_spec n 128); [discriminate V|]. destruct (Z.gtb_spec n 256); [discriminate V|].
    apply Z.eqb_eq in R. rewrite Z.rem_mod_nonneg in R by lia. pose proof (Z.div_mod n 32 ltac:(lia)). assert (n / 32 = 4 \/ n / 32 = 5 \/ n / 32 = 6 \/ n / 32 = 7 \/ n / 32 = 8) by lia. cbn [In]. lia.
  - intros I. repeat destruct I as [<-|I]; [..|contradiction]; reflexivity.
Qed.
Lemma size_pos n : In n [128; 160; 192; 224; 256] -> (0 < Z.to_nat (n / 8) <= 32)%nat.
Proof. intros I. repeat destruct I as [<-|I]; [..|contradiction]; vm_compute; lia. Qed.

Lemma C100_NewEntropy_l : forall fuel s n r, source_ok s -> NewEntropyFrom fuel s n = Some r ->
  exists rd, r = NewEntropy rd n /\
    (In n [128; 160; 192; 224; 256] -> (exists w, answered s (Z.to_nat (n / 8)) w) -> answered s (Z.to_nat (n / 8)) rd /\ snd r = None /\ fst r = rd).
Proof.
intros fuel s n r OK E. unfold NewEntropyFrom in E. unfold NewEntropy. destruct (validateEntropyBitSize n) as [x|] eqn:V.
{ injection E as <-. exists []. split; [reflexivity|]. intros I. apply bit_size_iff in I. congruence. }
assert (I : In n [128; 160; 192; 224; 256]) by (apply bit_size_iff; exact V). assert (Q : Z.quot n 8 = n / 8) by (apply Z.quot_div_nonneg; cbn in I; lia). rewrite Q in *.
pose proof (size_pos n I) as Hm. set (m := Z.to_nat (n / 8)) in *. clearbody m.
destruct (RandRead fuel s (repeat x00 m)) as [[[b k0] e']|] eqn:R; [|discriminate E]. injection E as <-.
apply RandRead_spec in R; [|exact OK|rewrite repeat_length; lia]. rewrite repeat_length in R. destruct R as (A & _ & _ & C & D & k & Lk & K).
exists b. rewrite firstn_all2, A, Nat.sub_diag by lia. cbn [repeat]. rewrite app_nil_r. split; [reflexivity|]. intros _ (w & AW).
destruct e' as [x|]; [destruct (D x eq_refl) as [D1 _]; destruct (D1 w AW)|]. split; [|split; reflexivity].
destruct (C eq_refl) as [C1|[O C1]]; [exact C1|destruct (O w AW)].
Qed.

Lemma C100_failure_refuted_l : forall n w, In n [128; 160; 192; 224; 256] -> (Z.of_nat (length w) < n / 8) -> exists s, source_ok s /\
  (forall fuel, NewEntropyFrom fuel s n = Some (w ++ repeat x00 (Z.to_nat (n / 8) - length w), None)) /\
  (forall fuel, exists seed x, NewSeed32 fuel s = Some (seed, Some x)).
Proof.
intros n w I L. pose proof (size_pos n I) as Hm. assert (Lw : (length w < Z.to_nat (n / 8))%nat) by lia.
exists {| s_sys := fun _ m => (firstn m w, None); s_max := Some 256%nat; s_open := Some (SysErr 2); s_file := fun _ _ => ([], None) |}.
assert (G : forall fuel m, (length w < m <= 256)%nat -> RandRead fuel {| s_sys := fun _ m => (firstn m w, None); s_max := Some 256%nat; s_open := Some (SysErr 2); s_file := fun _ _ => ([], None) |} (repeat x00 m) =
  Some (w ++ repeat x00 (m - length w), O, Some (SysErr 2))).
{ intros fuel m Lm. destruct m as [|m']; [lia|]. cbn [repeat]. unfold RandRead, rand_reader. cbn [s_max s_sys s_open s_file length batched]. rewrite repeat_length.
  change (x00 :: repeat x00 m') with (repeat x00 (S m')). replace (Nat.min (S m') 256) with (S m') by lia. unfold getRandom. rewrite (firstn_all2 (repeat x00 (S m'))) by (rewrite repeat_length; lia).
  rewrite repeat_length. rewrite (firstn_all2 w) by lia. replace (length w =? S m')%nat with false by (symmetry; apply Nat.eqb_neq; lia).
  rewrite (skipn_all2 (n := S m')) by (rewrite repeat_length; lia). rewrite app_nil_r.
  assert (E : skipn (length w) (repeat x00 (S m')) = repeat x00 (S m' - length w)).
  { replace (S m') with (length w + (S m' - length w))%nat at 1 by lia. rewrite repeat_app, skipn_app, skipn_all2, repeat_length, Nat.sub_diag by (rewrite repeat_length; lia). reflexivity. }
  rewrite E. rewrite read_end_short by (rewrite app_length, repeat_length; lia). reflexivity. }
split; [split; [intros c m; cbn [s_sys fst]; apply firstn_le_length|split; [intros c m; cbn; lia|cbn [s_max]; intros max [= <-]; lia]]|]. split.
- intros fuel. unfold NewEntropyFrom. rewrite (proj2 (bit_size_iff n) I). assert (Q : Z.quot n 8 = n / 8) by (apply Z.quot_div_nonneg; cbn in I; lia). rewrite Q, G by lia. reflexivity.
- intros fuel. unfold NewSeed32. rewrite G by lia. do 2 eexists. reflexivity.
Qed.

Lemma C100_ex_l : exists s, source_ok s /\ progress (s_file s) /\ NewSeed32 0 s = Some (repeat x07 256, None) /\ NewEntropyFrom 0 s 128 = Some (repeat x07 16, None) /\
(exists s', source_ok s' /\ progress (s_file s') /\ NewSeed32 256 s' = Some (repeat x05 256, None) /\ s_max s' = None /\ delivers (s_file s') 0 2 [x05; x05] None).
Proof.
exists {| s_sys := fun _ m => (repeat x07 m, None); s_max := Some 256%nat; s_open := None; s_file := fun _ m => (repeat x05 (Nat.min m 1), None) |}.
assert (F7 : fits (fun _ m => (repeat x07 m, None))) by (intros c m; cbn; rewrite repeat_length; lia).
assert (F5 : fits (fun _ m => (repeat x05 (Nat.min m 1), None))) by (intros c m; cbn [fst]; rewrite repeat_length; lia).
assert (P : progress (fun _ m => (repeat x05 (Nat.min m 1), None))) by (intros c m Hm; left; cbn [fst]; destruct m; [lia|discriminate]).
split; [split; [exact F7|split; [exact F5|cbn [s_max]; intros max [= <-]; lia]]|]. split; [exact P|]. split; [vm_compute; reflexivity|]. split; [vm_compute; reflexivity|].
exists {| s_sys := fun _ m => (repeat x07 m, None); s_max := None; s_open := None; s_file := fun _ m => (repeat x05 (Nat.min m 1), None) |}.
split; [split; [exact F7|split; [exact F5|discriminate]]|]. split; [exact P|]. split; [vm_compute; reflexivity|]. split; [reflexivity|].
apply (dl_more _ 0 2 [x05] None [x05] None); [lia|reflexivity|left; reflexivity|]. apply (dl_more _ 1 1 [x05] None [] None); [lia|reflexivity|left; reflexivity|]. constructor.
Qed.
