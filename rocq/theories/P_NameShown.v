(** The name that is shown (C88): lemmas. *)
From Verif Require Import Base BaseFacts QtText M_Addressee M_Name S_Name S_NameShown P_Types.
Open Scope nat_scope.
Open Scope list_scope.

Lemma words_acc_blank c t s : is_uspace c = true -> forall cur, words_acc cur (s ++ c :: t) = words_acc cur s ++ words t.
Proof.
  intros Hc. induction s as [|x s IH]; intros cur; cbn [app words_acc].
  - rewrite Hc. destruct cur; reflexivity.
  - destruct (is_uspace x); [destruct cur; rewrite IH; reflexivity|apply IH].
Qed.
Lemma words_blank c s t : is_uspace c = true -> words (s ++ c :: t) = words s ++ words t.
Proof. intros H. apply words_acc_blank, H. Qed.
Lemma words_of_blanks b s : all_blank b -> words (b ++ s) = words s.
Proof. intros H. induction H as [|c b Hc H IH]; [reflexivity|]. cbn [app]. unfold words at 1. cbn [words_acc]. rewrite Hc. exact IH. Qed.
Lemma words_of_word w r : w <> [] -> no_blank w -> word_ends r -> words (w ++ r) = w :: words r.
Proof.
  intros Hw Hn He. unfold words at 1. rewrite words_acc_app by exact Hn. cbn [app]. destruct r as [|c r].
  - cbn. destruct w; [congruence|reflexivity].
  - cbn [words_acc]. rewrite (He c r eq_refl). destruct w as [|x w]; [congruence|]. unfold words. cbn [words_acc]. rewrite (He c r eq_refl). reflexivity.
Qed.
Lemma word_list_words s ws : word_list s ws -> words s = ws.
Proof.
  induction 1 as [b H|b w r ws H1 H2 H3 H4 H5 IH].
  - rewrite <- (app_nil_r b), words_of_blanks by exact H. reflexivity.
  - rewrite words_of_blanks, words_of_word, IH; auto.
Qed.
Lemma words_word_list_n : forall n s, length s <= n -> word_list s (words s).
Proof.
  induction n as [|n IH]; intros s Hn.
  { destruct s; [|cbn in Hn; lia]. apply no_words. constructor. }
  assert (K : forall s, exists b r, s = b ++ r /\ all_blank b /\ (forall c t, r = c :: t -> is_uspace c = false)).
  { clear. induction s as [|c s (b & r & -> & Hb & Hr)]; [exists [], []; repeat split; [constructor|discriminate]|].
    destruct (is_uspace c) eqn:E; [exists (c :: b), r; repeat split; [constructor; auto|auto]|].
    exists [], (c :: b ++ r). repeat split; [constructor|]. intros x t Q. injection Q as <- _. exact E. }
  assert (K2 : forall s, exists w r, s = w ++ r /\ no_blank w /\ word_ends r).
  { clear. induction s as [|c s (b & r & -> & Hb & Hr)]; [exists [], []; repeat split; [constructor|]; intros ? ? Q; discriminate|].
    destruct (is_uspace c) eqn:E; [|exists (c :: b), r; repeat split; [constructor; auto|auto]].
    exists [], (c :: b ++ r). repeat split; [constructor|]. intros x t Q. injection Q as <- _. exact E. }
  destruct (K s) as (b & r & -> & Hb & Hr). destruct r as [|c r].
  { rewrite app_nil_r in *. rewrite <- (app_nil_r b) at 2. rewrite words_of_blanks by exact Hb. apply no_words, Hb. }
  destruct (K2 (c :: r)) as (w & q & E & Hw & Hq). assert (w <> []).
  { intros ->. cbn [app] in E. pose proof (Hr c r eq_refl) as A. rewrite (Hq c r (eq_sym E)) in A. discriminate. }
  rewrite E in Hn |- *.
  rewrite words_of_blanks, words_of_word by auto. apply one_word; auto. apply IH. rewrite !app_length in Hn. destruct w; [congruence|]. cbn in Hn. lia.
Qed.
Lemma words_word_list s : word_list s (words s).
Proof. apply (words_word_list_n (length s)). lia. Qed.
Lemma words_space s t : words (s ++ [cSP] ++ t) = words s ++ words t.
Proof. apply words_blank. reflexivity. Qed.
Lemma assembled_words a : assembled_name a = join [cSP] (words (a_prefix a) ++ words (a_given a) ++ words (a_additional a) ++ words (a_family a) ++ words (a_suffix a)).
Proof.
  unfold assembled_name, simplified. f_equal. cbn [join].
  rewrite !words_space. reflexivity.
Qed.
Lemma words_join_all l : words (join [cSP] l) = flat_map words l.
Proof.
  induction l as [|x l IH]; [reflexivity|]. destruct l as [|y l]; [cbn; rewrite app_nil_r; reflexivity|].
  change (join [cSP] (x :: y :: l)) with (x ++ [cSP] ++ join [cSP] (y :: l)). rewrite words_space, IH. reflexivity.
Qed.
Lemma words_filled l : flat_map words (filled l) = flat_map words l.
Proof. induction l as [|[|c w] l IH]; [reflexivity|exact IH|]. exact (f_equal (app (words (c :: w))) IH). Qed.
Lemma words_spaced s : words s = flat_map words (spaced s).
Proof. unfold spaced. rewrite words_filled, <- words_join_all, join_split. reflexivity. Qed.
Lemma assembled_spaced a : assembled_name a = join [cSP] (flat_map words (name_words a)).
Proof. rewrite assembled_words. unfold name_words. rewrite !flat_map_app, <- !words_spaced. reflexivity. Qed.
