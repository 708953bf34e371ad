(** PropsRand.v - the random source (C100).
    Every theorem is closed by the lemma of the same name in ClaimsRand.v; an Example beside it shows that its
    hypotheses can be met. *)
From Verif Require Import Base BaseFacts Bip39 SpecBip39 Bip39Facts GoRand SpecRand GoRandFacts ClaimsRand.

(** C100: the random source behind NewSeed of package bip32 and NewEntropy of package bip39. *)

Theorem C100_read : forall s fuel b b' n e, source_ok s -> (0 < length b)%nat -> RandRead fuel s b = Some (b', n, e) ->
  length b' = length b /\ (n <= length b)%nat /\ (e = None <-> n = length b) /\
  (e = None -> answered s (length b) b' \/ (forall w, ~ answered s (length b) w) /\ s_open s = None /\ delivers (s_file s) 0 (length b) b' None) /\
  (forall x, e = Some x -> (forall w, ~ answered s (length b) w) /\
     (s_open s = Some x \/ s_open s = None /\ exists w y, delivers (s_file s) 0 (length b) w (Some y) /\ firstn n b' = w /\ n = length w /\ Some x = eof n (Some y))) /\
  exists k, (k <= length b)%nat /\ skipn k b' = skipn k b.
Proof. exact C100_read_l. Qed.
Print Assumptions C100_read.

Theorem C100_ends : forall s b, source_ok s -> progress (s_file s) -> exists r, RandRead (length b) s b = Some r.
Proof. exact C100_ends_l. Qed.
Print Assumptions C100_ends.

Theorem C100_ends_refuted : forall s b, s_max s = None -> s_open s = None -> (forall c m, s_file s c m = ([], None) \/ s_file s c m = ([], Some EAGAIN)) -> (0 < length b)%nat ->
  forall fuel, RandRead fuel s b = None.
Proof. exact C100_ends_refuted_l. Qed.
Print Assumptions C100_ends_refuted.

Theorem C100_NewSeed : forall fuel s seed e, source_ok s -> NewSeed32 fuel s = Some (seed, e) ->
  length seed = 256%nat /\
  (e = None -> answered s 256 seed \/ s_open s = None /\ delivers (s_file s) 0 256 seed None) /\
  (e <> None -> (forall w, ~ answered s 256 w) /\ (forall w, s_open s = None -> ~ delivers (s_file s) 0 256 w None) /\ exists k, (k <= 256)%nat /\ seed = firstn k seed ++ repeat x00 (256 - k)).
Proof. exact C100_NewSeed_l. Qed.
Print Assumptions C100_NewSeed.

Theorem C100_seed_size_refuted : forall fuel s seed e, source_ok s -> NewSeed32 fuel s = Some (seed, e) -> ~ 128 <= 8 * Z.of_nat (length seed) <= 512.
Proof. exact C100_seed_size_refuted_l. Qed.
Print Assumptions C100_seed_size_refuted.

Theorem C100_NewEntropy : forall fuel s n r, source_ok s -> NewEntropyFrom fuel s n = Some r ->
  exists rd, r = NewEntropy rd n /\
    (In n [128; 160; 192; 224; 256] -> (exists w, answered s (Z.to_nat (n / 8)) w) -> answered s (Z.to_nat (n / 8)) rd /\ snd r = None /\ fst r = rd).
Proof. exact C100_NewEntropy_l. Qed.
Print Assumptions C100_NewEntropy.

Theorem C100_failure_refuted : forall n w, In n [128; 160; 192; 224; 256] -> (Z.of_nat (length w) < n / 8) -> exists s, source_ok s /\
  (forall fuel, NewEntropyFrom fuel s n = Some (w ++ repeat x00 (Z.to_nat (n / 8) - length w), None)) /\
  (forall fuel, exists seed x, NewSeed32 fuel s = Some (seed, Some x)).
Proof. exact C100_failure_refuted_l. Qed.
Print Assumptions C100_failure_refuted.

Example C100_ex : exists s, source_ok s /\ progress (s_file s) /\ NewSeed32 0 s = Some (repeat x07 256, None) /\ NewEntropyFrom 0 s 128 = Some (repeat x07 16, None) /\
(exists s', source_ok s' /\ progress (s_file s') /\ NewSeed32 256 s' = Some (repeat x05 256, None) /\ s_max s' = None /\ delivers (s_file s') 0 2 [x05; x05] None).
Proof. exact C100_ex_l. Qed.
