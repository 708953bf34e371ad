(** WordLists.v - the package initialisation shared by the ten files bip39/wordlists/*.go. *)
From Verif Require Import Base BaseFacts GoStr GoStrFacts Prims Hash Bip39 SpecBip39 Bip39Facts.

(** A raw string literal given line by line; every line of the ten literals ends in a newline.
    bip39/wordlists/english.go:24-2071 (others alike). *)
Definition lines (ls : list bytes) : bytes := flat_map (fun l => l ++ [x0a]) ls.

(** fmt.Sprintf("%x", v) for a non-negative v: bip39/wordlists/english.go:15 and the same line elsewhere. *)
Fixpoint hex_digits (n : nat) (v : Z) (acc : bytes) : bytes :=
  match n with
  | O => acc
  | S k => let acc := hexdigit (v mod 16) :: acc in if v / 16 =? 0 then acc else hex_digits k (v / 16) acc
  end.
(** bip39/wordlists/english.go:15 (others alike) *)
Definition Sprintf_x (v : Z) : bytes := hex_digits 16 v [].

(** The init function: bip39/wordlists/english.go:9-18 (others alike). Panic unless the checksum text agrees. *)
Definition wl_init (text crc : bytes) : outcome unit :=
  if bytes_eqb (Sprintf_x (crc32 text)) crc then Ret tt else Panic.

(** The exported slice: bip39/wordlists/english.go:22 (others alike). *)
Definition wl_words (text : bytes) : list bytes := Split x0a (TrimSpace text).

(** ** Checks evaluated on the data *)

(** Binary tries over the bits of words, for a fast duplicate check.
    Checker for the data of bip39/wordlists/english.go:22-2071 (others alike), not code of the repository. *)
Inductive trie := TLeaf | TNode (here : bool) (l r : trie).
(** checker for the data of bip39/wordlists/english.go:22-2071 (others alike), not code of the repository *)
Fixpoint tmem (t : trie) (k : list bool) : bool :=
  match t with
  | TLeaf => false
  | TNode h l r => match k with [] => h | b :: k => if b then tmem r k else tmem l k end
  end.
(** checker for the data of bip39/wordlists/english.go:22-2071 (others alike), not code of the repository *)
Fixpoint tins1 (k : list bool) : trie :=
  match k with
  | [] => TNode true TLeaf TLeaf
  | b :: k => if b then TNode false TLeaf (tins1 k) else TNode false (tins1 k) TLeaf
  end.
(** checker for the data of bip39/wordlists/english.go:22-2071 (others alike), not code of the repository *)
Fixpoint tins (t : trie) (k : list bool) : trie :=
  match t with
  | TLeaf => tins1 k
  | TNode h l r =>
    match k with [] => TNode true l r | b :: k => if b then TNode h l (tins r k) else TNode h (tins l k) r end
  end.
(** checker for the data of bip39/wordlists/english.go:22-2071 (others alike), not code of the repository *)
Definition wkey (w : bytes) : list bool :=
  flat_map (fun b => let '(b0, (b1, (b2, (b3, (b4, (b5, (b6, b7))))))) := Byte.to_bits b in
                     [b0; b1; b2; b3; b4; b5; b6; b7]) w.
(** checker for the data of bip39/wordlists/english.go:22-2071 (others alike), not code of the repository *)
Fixpoint tall (l : list bytes) (t : trie) : trie :=
  match l with [] => t | w :: r => tall r (tins t (wkey w)) end.
(** checker for the data of bip39/wordlists/english.go:22-2071 (others alike), not code of the repository *)
Fixpoint tnodup (l : list bytes) (t : trie) : bool :=
  match l with
  | [] => true
  | w :: r => let k := wkey w in if tmem t k then false else tnodup r (tins t k)
  end.
Lemma tins1_mem k : tmem (tins1 k) k = true.
Proof. induction k as [|[] k IH]; [reflexivity|exact IH..]. Qed.
Lemma tins_mem t k : tmem (tins t k) k = true.
Proof.
  revert k; induction t as [|h l IHl r IHr]; intros k; [apply tins1_mem|].
  destruct k as [|[] k]; [reflexivity|apply IHr|apply IHl].
Qed.
Lemma tins_mono t k k' : tmem t k' = true -> tmem (tins t k) k' = true.
Proof.
  revert k k'; induction t as [|h l IHl r IHr]; intros k k' E; [discriminate|].
  destruct k as [|[] k], k' as [|[] k']; cbn [tins tmem] in E |- *; auto.
Qed.
Lemma tall_mem l : forall t w, In w l \/ tmem t (wkey w) = true -> tmem (tall l t) (wkey w) = true.
Proof.
  induction l as [|v l IH]; intros t w E; [destruct E as [[]|E]; exact E|]. cbn [tall]. apply IH.
  destruct E as [[->|E]|E]; [right; apply tins_mem|left; exact E|right; apply tins_mono; exact E].
Qed.
Lemma tnodup_ok l : forall t, tnodup l t = true -> NoDup l /\ forall w, In w l -> tmem t (wkey w) = false.
Proof.
  induction l as [|v l IH]; intros t E; [split; [constructor|intros w []]|].
  cbn [tnodup] in E. cbv zeta in E. destruct (tmem t (wkey v)) eqn:M; [discriminate|].
  destruct (IH _ E) as [ND A]. split.
  - constructor; [|exact ND]. intros Hin. specialize (A v Hin). rewrite tins_mem in A. discriminate.
  - intros w [->|Hin]; [exact M|]. specialize (A w Hin). destruct (tmem t (wkey w)) eqn:M'; [|reflexivity].
    rewrite (tins_mono t (wkey v) _ M') in A. discriminate.
Qed.
(** No word of [l] is in [k].
    Checker for the data of bip39/wordlists/english.go:22-2071 (others alike), not code of the repository. *)
Definition disjointb (l k : list bytes) : bool :=
  let t := tall k TLeaf in forallb (fun w => negb (tmem t (wkey w))) l.
Lemma disjoint_ok l k : disjointb l k = true -> Forall (fun w => ~ In w k) l.
Proof.
  intros E. apply Forall_forall. intros w Hw I. unfold disjointb in E. cbv zeta in E. rewrite forallb_forall in E.
  specialize (E w Hw). rewrite (tall_mem k TLeaf w (or_introl I)) in E. discriminate.
Qed.

(** The words of a literal whose lines are words. *)
Lemma runes_newline r : runes_of (x0a :: r) = ([x0a], true) :: runes_of r.
Proof. rewrite runes_of_cons by discriminate. reflexivity. Qed.
Lemma x0a_noncont : noncont x0a. Proof. left. reflexivity. Qed.
Lemma drop_spaces_id a l : nonspace [a] = true -> drop_spaces (a :: l) = a :: l.
Proof. destruct a as [c []]; [discriminate|reflexivity]. Qed.
Lemma runes_Join_lines ls : ls <> [] -> runes_of (lines ls) = runes_of (Join [x0a] ls) ++ [([x0a], true)].
Proof.
  induction ls as [|w ls IH]; intros Hn; [now elim Hn|]. clear Hn.
  destruct ls as [|w' ls].
  - cbn [lines flat_map Join]. rewrite app_nil_r. rewrite runes_of_app by apply x0a_noncont. rewrite runes_newline. reflexivity.
  - change (lines (w :: w' :: ls)) with ((w ++ [x0a]) ++ lines (w' :: ls)).
    change (Join [x0a] (w :: w' :: ls)) with (w ++ x0a :: Join [x0a] (w' :: ls)).
    rewrite <- app_assoc. cbn [app].
    rewrite !runes_of_app by apply x0a_noncont. rewrite !runes_newline, IH by discriminate.
    rewrite <- !app_assoc. reflexivity.
Qed.
Lemma nonspace_app a b : nonspace (a ++ b) = nonspace a && nonspace b.
Proof. apply forallb_app. Qed.
Lemma word_ends w : word_ok w = true -> exists x A y C, runes_of w = x :: A /\ nonspace [x] = true /\
  runes_of w = C ++ [y] /\ nonspace [y] = true.
Proof.
  intros H. destruct w as [|a w]; [discriminate|]. cbn [word_ok] in H.
  pose proof (runes_concat (a :: w)) as R.
  destruct (runes_of (a :: w)) as [|x A] eqn:E; [discriminate|].
  destruct (@exists_last _ (x :: A)) as (C & y & E2); [discriminate|].
  exists x, A, y, C. split; [reflexivity|]. rewrite <- E2. split; [|split; [reflexivity|]].
  - change (x :: A) with ([x] ++ A) in H. rewrite nonspace_app in H. apply andb_true_iff in H as [H _]. exact H.
  - rewrite E2, nonspace_app in H. apply andb_true_iff in H as [_ H]. exact H.
Qed.
Lemma Join_ends ls : ls <> [] -> Forall (fun w => word_ok w = true) ls ->
  exists x A y C, runes_of (Join [x0a] ls) = x :: A /\ nonspace [x] = true /\
  runes_of (Join [x0a] ls) = C ++ [y] /\ nonspace [y] = true.
Proof.
  intros Hn H. induction H as [|w ls Hw H IH]; [now elim Hn|].
  destruct (word_ends w Hw) as (x & A & y & C & E1 & N1 & E2 & N2).
  destruct ls as [|w' ls]; [exists x, A, y, C; auto|].
  destruct IH as (x' & A' & y' & C' & E1' & N1' & E2' & N2'); [discriminate|].
  change (Join [x0a] (w :: w' :: ls)) with (w ++ x0a :: Join [x0a] (w' :: ls)).
  rewrite runes_of_app by apply x0a_noncont. rewrite runes_newline.
  exists x, (A ++ ([x0a], true) :: runes_of (Join [x0a] (w' :: ls))), y', (runes_of w ++ ([x0a], true) :: C').
  split; [rewrite E1; reflexivity|]. split; [exact N1|]. split; [|exact N2'].
  rewrite E2', <- app_assoc. reflexivity.
Qed.
Lemma TrimSpace_lines ls : ls <> [] -> Forall (fun w => word_ok w = true) ls -> TrimSpace (lines ls) = Join [x0a] ls.
Proof.
  intros Hn H. unfold TrimSpace. rewrite runes_Join_lines by exact Hn.
  destruct (Join_ends ls Hn H) as (x & A & y & C & E1 & N1 & E2 & N2).
  rewrite E1 at 1. cbn [app]. rewrite drop_spaces_id by exact N1. change (x :: A ++ [([x0a], true)]) with ((x :: A) ++ [([x0a], true)]).
  rewrite <- E1, rev_app_distr. cbn [rev app drop_spaces]. rewrite E2, rev_app_distr. cbn [rev app].
  rewrite drop_spaces_id by exact N2. change (y :: rev C) with ([y] ++ rev C). rewrite rev_app_distr, rev_involutive.
  cbn [rev app]. rewrite <- E2. apply runes_concat.
Qed.
(** checker for the data of bip39/wordlists/english.go:22-2071 (others alike), not code of the repository *)
Definition line_ok (w : bytes) : bool := word_ok w && negb (ContainsB x0a w).
Lemma wl_words_lines ls : ls <> [] -> forallb line_ok ls = true -> wl_words (lines ls) = ls.
Proof.
  intros Hn H. rewrite forallb_forall in H. unfold wl_words. rewrite TrimSpace_lines.
  - apply Split_Join; [exact Hn|]. apply Forall_forall. intros w Hw. specialize (H w Hw).
    apply andb_true_iff in H as [_ H]. apply negb_true_iff in H. exact H.
  - exact Hn.
  - apply Forall_forall. intros w Hw. specialize (H w Hw). apply andb_true_iff in H as [H _]. exact H.
Qed.

(** checker for the data of bip39/wordlists/english.go:22-2071 (others alike), not code of the repository *)
Definition wl_good (text crc : bytes) : Prop :=
  wl_init text crc = Ret tt /\ good_list (wl_words text) /\ text_words (wl_words text).
(** checker for the data of bip39/wordlists/english.go:22-2071 (others alike), not code of the repository *)
Definition wl_check_all (ls : list bytes) (crc : bytes) : bool :=
  bytes_eqb (Sprintf_x (crc32 (lines ls))) crc && ((length ls =? 2048)%nat && (tnodup ls TLeaf && forallb line_ok ls)).
Lemma wl_good_ok ls crc : wl_check_all ls crc = true -> wl_good (lines ls) crc /\ wl_words (lines ls) = ls.
Proof.
  unfold wl_check_all. rewrite !andb_true_iff, Nat.eqb_eq. intros (H1 & H2 & H3 & H4).
  assert (E : wl_words (lines ls) = ls).
  { apply wl_words_lines; [|exact H4]. intros ->. discriminate H2. }
  split; [|exact E]. unfold wl_good. rewrite E. split; [unfold wl_init; rewrite H1; reflexivity|].
  split; [split; [exact H2|exact (proj1 (tnodup_ok ls TLeaf H3))]|].
  apply text_words_ok, Forall_forall. intros w Hw. rewrite forallb_forall in H4. specialize (H4 w Hw).
  apply andb_true_iff in H4 as [H4 _]. exact H4.
Qed.
