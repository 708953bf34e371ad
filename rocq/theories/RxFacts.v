(** RxFacts.v - the derivative matcher decides the denotation. *)
From Verif Require Import Base BaseFacts Rx.

Lemma nullable_spec r : nullable r = true <-> Matches r [].
Proof.
  induction r as [| |p|a IHa b IHb|a IHa b IHb|a IHa]; simpl.
  - split; [discriminate|inversion 1].
  - split; [constructor|reflexivity].
  - split; [discriminate|inversion 1].
  - rewrite andb_true_iff, IHa, IHb. split.
    + intros [Ha Hb]. change (@nil byte) with (@nil byte ++ []). constructor; assumption.
    + intros H. inversion H as [| |? ? s t Ha Hb E1 E2| | | |]; subst.
      apply app_eq_nil in E2 as [-> ->]. split; assumption.
  - rewrite orb_true_iff, IHa, IHb. split.
    + intros [H|H]; [apply MAltL|apply MAltR]; assumption.
    + intros H; inversion H; subst; [left|right]; assumption.
  - split; [intros _; constructor|reflexivity].
Qed.

Lemma star_inv r s : Matches r s -> forall a c t, r = Rstar a -> s = c :: t ->
  exists u v, t = u ++ v /\ Matches a (c :: u) /\ Matches (Rstar a) v.
Proof.
  induction 1 as [|p0 c0 Hp|a0 b0 s0 t0|a0 b0 s0|a0 b0 s0|a0|a' s1 t1 H1 IH1 H2 IH2]; intros a c t Er Es; try discriminate.
  inversion Er; subst a'. destruct s1 as [|c' s1].
  - simpl in Es. apply (IH2 a c t eq_refl Es).
  - simpl in Es. inversion Es; subst. exists s1, t1. auto.
Qed.

Lemma deriv_spec r c s : Matches (deriv c r) s <-> Matches r (c :: s).
Proof.
  revert s; induction r as [| |p|a IHa b IHb|a IHa b IHb|a IHa]; intros s; simpl.
  - split; inversion 1.
  - split; inversion 1.
  - destruct (p c) eqn:E.
    + split; intros H; inversion H; subst; constructor; assumption.
    + split; intros H; inversion H; subst; congruence.
  - assert (Hcat : Matches (Rcat (deriv c a) b) s <->
                   exists u v, s = u ++ v /\ Matches a (c :: u) /\ Matches b v).
    { split.
      - intros H; inversion H as [| |? ? u v Ha Hb E1 E2| | | |]; subst.
        exists u, v. split; [reflexivity|]. split; [apply IHa|]; assumption.
      - intros (u & v & -> & Ha & Hb). constructor; [apply IHa|]; assumption. }
    assert (Hinv : Matches (Rcat a b) (c :: s) <->
                   (exists u v, s = u ++ v /\ Matches a (c :: u) /\ Matches b v) \/
                   (Matches a [] /\ Matches b (c :: s))).
    { split.
      - intros H; inversion H as [| |? ? u v Ha Hb E1 E2| | | |]; subst.
        destruct u as [|c' u].
        + simpl in E2. subst v. right; auto.
        + simpl in E2. inversion E2; subst. left. exists u, v. auto.
      - intros [(u & v & -> & Ha & Hb)|[Ha Hb]].
        + change (c :: u ++ v) with ((c :: u) ++ v). constructor; assumption.
        + change (c :: s) with ([] ++ (c :: s)). constructor; assumption. }
    rewrite Hinv, <- Hcat. destruct (nullable a) eqn:E.
    + apply nullable_spec in E. split.
      * intros H; inversion H; subst; [left; assumption|right; split; [assumption|apply IHb; assumption]].
      * intros [H|[_ H]]; [apply MAltL; exact H|apply MAltR, IHb; exact H].
    + split; [left; assumption|]. intros [H|[H _]]; [exact H|].
      apply nullable_spec in H. congruence.
  - split; intros H; inversion H; subst.
    + apply MAltL, IHa; assumption.
    + apply MAltR, IHb; assumption.
    + apply MAltL, IHa; assumption.
    + apply MAltR, IHb; assumption.
  - split.
    + intros H; inversion H as [| |? ? u v Ha Hb E1 E2| | | |]; subst.
      change (c :: u ++ v) with ((c :: u) ++ v). constructor; [apply IHa|]; assumption.
    + intros H. destruct (star_inv _ _ H a c s eq_refl eq_refl) as (u & v & -> & Ha & Hb).
      constructor; [apply IHa|]; assumption.
Qed.

Theorem rx_match_spec r s : rx_match r s = true <-> Matches r s.
Proof.
  revert r; induction s as [|c s IH]; intros r; simpl.
  - apply nullable_spec.
  - rewrite IH. apply deriv_spec.
Qed.

(** Inversion lemmas in equational form. *)
Lemma Matches_cls p s : Matches (Rcls p) s <-> exists c, s = [c] /\ p c = true.
Proof.
  split; [intros H; inversion H; subst; eauto|]. intros (c & -> & H). constructor; exact H.
Qed.
Lemma Matches_chr c s : Matches (Rchr c) s <-> s = [c].
Proof.
  unfold Rchr. rewrite Matches_cls. split.
  - intros (d & -> & H). apply byte_eqb_spec in H. now subst.
  - intros ->. exists c. split; [reflexivity|apply byte_eqb_refl].
Qed.
Lemma Matches_cat a b s : Matches (Rcat a b) s <-> exists u v, s = u ++ v /\ Matches a u /\ Matches b v.
Proof.
  split.
  - intros H; inversion H; subst. eauto.
  - intros (u & v & -> & Ha & Hb). constructor; assumption.
Qed.
Lemma Matches_star a s : Matches (Rstar a) s <-> exists l, s = concat l /\ Forall (Matches a) l.
Proof.
  split.
  - intros H. remember (Rstar a) as r eqn:E. revert E.
    induction H as [| | | | | |a' s t H1 _ H2 IH2]; intros E; try discriminate.
    + exists []. split; [reflexivity|constructor].
    + inversion E; subst a'. destruct (IH2 eq_refl) as (l & -> & Hl).
      exists (s :: l). split; [reflexivity|constructor; assumption].
  - intros (l & -> & Hl). induction Hl as [|x l Hx Hl IH]; simpl; [constructor|].
    constructor; assumption.
Qed.
Lemma Matches_star_cls p s : Matches (Rstar (Rcls p)) s <-> forallb p s = true.
Proof.
  rewrite Matches_star, forallb_forall. split.
  - intros (l & -> & Hl) x Hx. apply in_concat in Hx as (w & Hw & Hx).
    rewrite Forall_forall in Hl. specialize (Hl w Hw). apply Matches_cls in Hl as (c & -> & Hc).
    destruct Hx as [<-|[]]. exact Hc.
  - intros H. exists (map (fun c => [c]) s). split.
    + induction s; simpl; [reflexivity|]. f_equal. apply IHs. intros; apply H; right; assumption.
    + rewrite Forall_forall. intros w Hw. apply in_map_iff in Hw as (c & <- & Hc).
      constructor. apply H; exact Hc.
Qed.
Lemma Matches_plus_cls p s : Matches (Rplus (Rcls p)) s <-> s <> [] /\ forallb p s = true.
Proof.
  unfold Rplus. rewrite Matches_cat. split.
  - intros (u & v & -> & Hu & Hv). apply Matches_cls in Hu as (c & -> & Hc).
    apply Matches_star_cls in Hv. simpl. rewrite Hc, Hv. split; [discriminate|reflexivity].
  - intros [Hn H]. destruct s as [|c s]; [now elim Hn|]. simpl in H.
    apply andb_true_iff in H as [Hc H]. exists [c], s. split; [reflexivity|].
    split; [constructor; exact Hc|apply Matches_star_cls; exact H].
Qed.
Lemma Matches_upto_cls n p s :
  Matches (Rupto n (Rcls p)) s <-> (length s <= n)%nat /\ forallb p s = true.
Proof.
  revert s; induction n as [|n IH]; intros s; simpl.
  - split.
    + intros H; inversion H; subst. split; [simpl; lia|reflexivity].
    + intros [H _]. destruct s; [constructor|simpl in H; lia].
  - unfold Ropt. split.
    + intros H. inversion H as [| | |? ? ? H'|? ? ? H'| |]; subst.
      * inversion H'; subst. split; [simpl; lia|reflexivity].
      * apply Matches_cat in H' as (u & v & -> & Hu & Hv). apply Matches_cls in Hu as (c & -> & Hc).
        apply IH in Hv as [Hl Hf]. simpl. rewrite Hc, Hf. split; [lia|reflexivity].
    + intros [Hl Hf]. destruct s as [|c s]; [apply MAltL; constructor|].
      simpl in *. apply andb_true_iff in Hf as [Hc Hf]. apply MAltR.
      change (c :: s) with ([c] ++ s). constructor; [constructor; exact Hc|].
      apply IH. split; [lia|exact Hf].
Qed.
