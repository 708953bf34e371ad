(** SecpPrime.v - the secp256k1 field prime and group order are prime (Pocklington certificates).
    For the two 256-bit moduli the reductions fold at bit 256, which keeps the check small for coqchk. *)
From Coq Require Import Znumtheory.
From Verif Require Import Base Prime Secp.

(** ** x mod N for 2^k = N + c *)
(** In proofs; for bip32/utils.go:16-19. *)
Definition foldk (k c m x : Z) : Z := Z.shiftr x k * c + Z.land x m.
(** In proofs; for bip32/utils.go:16-19. *)
Definition redk (k c m N x : Z) : Z :=
  let r := foldk k c m (foldk k c m (foldk k c m x)) in
  if (0 <=? r) && (r <? N) then r else r mod N.
Lemma foldk_mod k c N x : 0 <= k -> 0 < N -> 2 ^ k = N + c -> foldk k c (Z.ones k) x mod N = x mod N.
Proof.
  intros Hk HN Hc. unfold foldk. rewrite Z.land_ones, Z.shiftr_div_pow2 by lia.
  assert (P : 0 < 2 ^ k) by (apply Z.pow_pos_nonneg; lia).
  pose proof (Z.div_mod x (2 ^ k) ltac:(lia)) as E. revert E.
  generalize (x / 2 ^ k) as q. generalize (x mod 2 ^ k) as r. intros r q ->. rewrite Hc.
  replace ((N + c) * q + r) with (q * c + r + q * N) by ring.
  rewrite Z.mod_add by lia. reflexivity.
Qed.
Lemma redk_mod k c N x : 0 <= k -> 0 < N -> 2 ^ k = N + c -> redk k c (Z.ones k) N x = x mod N.
Proof.
  intros Hk HN Hc. unfold redk. cbv zeta. set (r := foldk _ _ _ _).
  assert (E : r mod N = x mod N) by (unfold r; rewrite !foldk_mod by assumption; reflexivity).
  destruct ((0 <=? r) && (r <? N)) eqn:C; [|exact E].
  apply andb_true_iff in C as [C1 C2]. rewrite <- E. symmetry. apply Z.mod_small.
  split; [apply Z.leb_le|apply Z.ltb_lt]; assumption.
Qed.

(** ** Powers and the Pocklington check with a given reduction *)
(** In proofs; for bip32/utils.go:16-19. *)
Fixpoint pow_red (red : Z -> Z) (a : Z) (e : positive) : Z :=
  match e with
  | xH => red a
  | xO e' => let r := pow_red red a e' in red (r * r)
  | xI e' => let r := pow_red red a e' in red (a * (r * r))
  end.
Lemma pow_red_spec red N a e : (forall x, red x = x mod N) -> N <> 0 -> pow_red red a e = a ^ Zpos e mod N.
Proof.
  intros HR HN. induction e as [e IH|e IH|]; cbn [pow_red]; cbv zeta; rewrite HR.
  - rewrite IH, (Pos2Z.inj_xI e), Z.pow_add_r, Z.pow_1_r by lia.
    replace (2 * Z.pos e) with (Z.pos e + Z.pos e) by ring. rewrite Z.pow_add_r by lia.
    rewrite <- Zmult_mod_idemp_r, <- Zmult_mod, Zmult_mod_idemp_r. f_equal. ring.
  - rewrite IH, <- Zmult_mod, (Pos2Z.inj_xO e).
    replace (2 * Z.pos e) with (Z.pos e + Z.pos e) by ring. rewrite Z.pow_add_r by lia. reflexivity.
  - rewrite Z.pow_1_r. reflexivity.
Qed.
(** In proofs; for bip32/utils.go:16-19. *)
Definition pock_check_red (red : Z -> Z) (N a : Z) (qs : list Z) : bool :=
  (1 <? N) && (N <? zprod qs * zprod qs)
  && (pow_red red a (Z.to_pos (N - 1)) =? 1)
  && forallb (fun q => ((N - 1) mod q =? 0) && (0 <? (N - 1) / q)
                       && (Z.gcd (pow_red red a (Z.to_pos ((N - 1) / q)) - 1) N =? 1)) qs.
Lemma pock_prime_red red N a qs : (forall x, red x = x mod N) -> NoDup qs -> (forall q, In q qs -> prime q) ->
  pock_check_red red N a qs = true -> prime N.
Proof.
  intros HR ND Hq H. unfold pock_check_red in H. rewrite !andb_true_iff in H.
  destruct H as [[[H1 H2] H3] H4]. rewrite forallb_forall in H4.
  apply (pocklington N a qs); try assumption; try lia.
  - intros q Hin. apply H4 in Hin as Hc. pose proof (prime_ge_2 _ (Hq q Hin)).
    rewrite !andb_true_iff in Hc. apply Z.mod_divide; lia.
  - rewrite (pow_red_spec red N), Z2Pos.id in H3 by (assumption || lia). lia.
  - intros q Hin. apply H4 in Hin as Hc. rewrite !andb_true_iff in Hc. destruct Hc as [[_ Hc0] Hc].
    rewrite (pow_red_spec red N), Z2Pos.id in Hc by (assumption || lia). apply Z.eqb_eq in Hc.
    set (x := a ^ ((N - 1) / q)) in *. transitivity (Z.gcd (x mod N - 1) N); [|exact Hc].
    rewrite (Z.gcd_comm (x mod N - 1)), (Z.gcd_comm (x - 1)).
    rewrite <- (Z.gcd_mod (x - 1) N), <- (Z.gcd_mod (x mod N - 1) N) by lia.
    rewrite Zminus_mod_idemp_l. reflexivity.
Qed.

Ltac nodup := repeat constructor; simpl; intuition discriminate.
Ltac allp := simpl; intros ? Hq; repeat (destruct Hq as [<-|Hq]; [assumption|]); contradiction.
Ltac pock l := apply (pock_prime _ 2 l); [nodup|allp|vm_cast_no_check (eq_refl true)].

(** In proofs; for bip32/utils.go:16-19. *)
Definition ones256 : Z := 0xFFFFFFFFFFFFFFFFFFFFFFFFFFFFFFFFFFFFFFFFFFFFFFFFFFFFFFFFFFFFFFFF.
(** In proofs; for bip32/utils.go:16-19. *)
Definition red_p (x : Z) : Z := redk 256 4294968273 ones256 secp_p x.
(** In proofs; for bip32/utils.go:16-19. *)
Definition red_n (x : Z) : Z := redk 256 0x14551231950B75FC4402DA1732FC9BEBF ones256 secp_n x.
Lemma red_p_mod x : red_p x = x mod secp_p.
Proof. apply (redk_mod 256 4294968273 secp_p x); [discriminate|reflexivity|reflexivity]. Qed.
Lemma red_n_mod x : red_n x = x mod secp_n.
Proof. apply (redk_mod 256 0x14551231950B75FC4402DA1732FC9BEBF secp_n x); [discriminate|reflexivity|reflexivity]. Qed.

Theorem secp_p_prime : prime secp_p.
Proof.
  assert (prime 53) by (apply trial_prime; vm_compute; reflexivity).
  assert (prime 29) by (apply trial_prime; vm_compute; reflexivity).
  assert (prime 7) by (apply trial_prime; vm_compute; reflexivity).
  assert (prime 1206781) by (apply trial_prime; vm_compute; reflexivity).
  assert (prime 7240687) by pock [1206781].
  assert (prime 96557) by (apply trial_prime; vm_compute; reflexivity).
  assert (prime 107590001) by pock [53;29;7].
  assert (prime 255515944373312847190720520512484175977) by pock [107590001;7240687;96557].
  assert (prime 205115282021455665897114700593932402728804164701536103180137503955397371)
    by pock [255515944373312847190720520512484175977].
  apply (pock_prime_red red_p secp_p 2 [205115282021455665897114700593932402728804164701536103180137503955397371]);
    [exact red_p_mod|nodup|allp|vm_cast_no_check (eq_refl true)].
Qed.

Theorem secp_n_prime : prime secp_n.
Proof.
  assert (prime 1627771) by (apply trial_prime; vm_compute; reflexivity).
  assert (prime 28181) by (apply trial_prime; vm_compute; reflexivity).
  assert (prime 9349) by (apply trial_prime; vm_compute; reflexivity).
  assert (prime 120233) by (apply trial_prime; vm_compute; reflexivity).
  assert (prime 297159362677) by pock [1627771].
  assert (prime 545358713) by pock [28181].
  assert (prime 29047611873442575647497758179) by pock [297159362677;545358713].
  assert (prime 341948486974166000522343609283189) by pock [29047611873442575647497758179].
  assert (prime 44706919) by pock [9349].
  assert (prime 174723607534414371449) by pock [44706919;120233].
  apply (pock_prime_red red_n secp_n 2 [341948486974166000522343609283189;174723607534414371449]);
    [exact red_n_mod|nodup|allp|vm_cast_no_check (eq_refl true)].
Qed.
