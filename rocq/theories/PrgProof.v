From Coq Require Import List NArith Bool Arith Lia.
From Verif Require Import PrgModel.
Import ListNotations.
Open Scope nat_scope.

(** ** Bytes *)
Lemma le_bytes_length k : forall v, length (le_bytes k v) = k.
Proof. induction k as [|k IH]; intros v; cbn; auto. Qed.
Lemma le_bytes_lt k : forall v, Forall (fun b => (b < 256)%N) (le_bytes k v).
Proof. induction k as [|k IH]; intros v; cbn [le_bytes]; constructor; auto. apply N.mod_lt. discriminate. Qed.
Lemma le_val_cons b l : le_val (b :: l) = (b + 256 * le_val l)%N.
Proof. reflexivity. Qed.
Lemma pow8_S k : (2 ^ (8 * N.of_nat (S k)) = 256 * 2 ^ (8 * N.of_nat k))%N.
Proof. replace (8 * N.of_nat (S k))%N with (8 + 8 * N.of_nat k)%N by lia. rewrite N.pow_add_r. reflexivity. Qed.
Lemma le_val_bytes k : forall v, le_val (le_bytes k v) = (v mod 2 ^ (8 * N.of_nat k))%N.
Proof.
  induction k as [|k IH]; intros v.
  - cbn. symmetry. apply N.mod_1_r.
  - cbn [le_bytes]. rewrite le_val_cons, IH, pow8_S. set (P := (2 ^ (8 * N.of_nat k))%N).
    assert (P <> 0%N) by (apply N.pow_nonzero; discriminate).
    rewrite N.mod_mul_r by (auto; discriminate). reflexivity.
Qed.
Lemma le_val_lt l : Forall (fun b => (b < 256)%N) l -> (le_val l < 2 ^ (8 * N.of_nat (length l)))%N.
Proof.
  induction 1 as [|b l B L IH]; [reflexivity|]. rewrite le_val_cons. cbn [length]. rewrite pow8_S.
  set (P := (2 ^ (8 * N.of_nat (length l)))%N) in *. nia.
Qed.
Lemma le_bytes_val l : Forall (fun b => (b < 256)%N) l -> le_bytes (length l) (le_val l) = l.
Proof.
  induction 1 as [|b l B L IH]; auto. cbn [length le_bytes]. rewrite le_val_cons.
  replace (b + 256 * le_val l)%N with (b + le_val l * 256)%N by lia. rewrite N.mod_add, N.div_add by discriminate.
  rewrite N.mod_small, N.div_small by exact B. rewrite N.add_0_l, IH. reflexivity.
Qed.
Lemma le_val_inj k l l' : length l = k -> length l' = k -> Forall (fun b => (b < 256)%N) l -> Forall (fun b => (b < 256)%N) l' ->
  le_val l = le_val l' -> l = l'.
Proof. intros E E' F F' H. rewrite <- (le_bytes_val l F), <- (le_bytes_val l' F'), E, E', H. reflexivity. Qed.
Lemma le_val_app l l' : le_val (l ++ l') = (le_val l + 2 ^ (8 * N.of_nat (length l)) * le_val l')%N.
Proof.
  induction l as [|b l IH]; [cbn [app length]; change (2 ^ (8 * N.of_nat 0))%N with 1%N; change (le_val []) with 0%N; lia|].
  cbn [app length]. rewrite !le_val_cons, IH, pow8_S. lia.
Qed.

Lemma to_mem_length l : length (to_mem l) = 16 * length l.
Proof. induction l as [|b l IH]; auto. cbn [to_mem flat_map]. rewrite app_length, le_bytes_length. fold (to_mem l). rewrite IH. cbn [length]. lia. Qed.
Lemma to_mem_app l l' : to_mem (l ++ l') = to_mem l ++ to_mem l'.
Proof. apply flat_map_app. Qed.
Lemma to_mem_firstn l k : firstn (16 * k) (to_mem l) = to_mem (firstn k l).
Proof.
  rewrite <- (firstn_skipn k l) at 1. rewrite to_mem_app, firstn_app.
  destruct (Nat.le_gt_cases k (length l)) as [H|H].
  - rewrite (to_mem_length (firstn k l)), firstn_length, Nat.min_l, Nat.sub_diag, firstn_O, app_nil_r by lia.
    apply firstn_all2. rewrite to_mem_length, firstn_length. lia.
  - rewrite (skipn_all2 l) by lia. cbn [to_mem flat_map]. rewrite firstn_nil, app_nil_r.
    apply firstn_all2. rewrite to_mem_length, firstn_length. lia.
Qed.

(** ** Block counts *)
Lemma nblock_bounds len : len <= 16 * nblock len /\ 16 * nblock len < len + 16.
Proof.
  unfold nblock. pose proof (Nat.div_mod (len + 15) 16 ltac:(lia)). pose proof (Nat.mod_upper_bound (len + 15) 16 ltac:(lia)). lia.
Qed.
Lemma nblock_exact len : len mod 16 = 0 -> 16 * nblock len = len.
Proof. intros H. pose proof (nblock_bounds len). pose proof (Nat.div_mod len 16 ltac:(lia)). lia. Qed.
Lemma nblock_part len : len mod 16 <> 0 -> len = 16 * (nblock len - 1) + len mod 16 /\ 1 <= nblock len.
Proof.
  intros H. pose proof (nblock_bounds len). pose proof (Nat.div_mod len 16 ltac:(lia)). pose proof (Nat.mod_upper_bound len 16 ltac:(lia)). lia.
Qed.
Lemma nblock_add a b : a mod 16 = 0 -> nblock (a + b) = nblock a + nblock b.
Proof.
  intros H. pose proof (nblock_exact a H). pose proof (nblock_bounds b). pose proof (nblock_bounds (a + b)). lia.
Qed.

Lemma content_length c n : length (content c n) = n.
Proof. unfold content. rewrite map_length, seq_length. reflexivity. Qed.
Lemma content_val c n : (c + N.of_nat n <= 2 ^ 128)%N -> content c n = map (fun j => (c + N.of_nat j)%N) (seq 0 n).
Proof.
  intros H. apply map_ext_in. intros j J. apply in_seq in J. apply N.mod_small. lia.
Qed.
Lemma cbc_length enc l : forall p, length (cbc enc p l) = length l.
Proof. induction l as [|b l IH]; intros p; cbn; auto. Qed.
Lemma le_128 n : (n <= 2 ^ 64)%N -> (n <= 2 ^ 128)%N.
Proof. intros H. apply (N.le_trans _ (2 ^ 64)); [exact H|discriminate]. Qed.

(** All modes are prefixes of a stream of blocks. *)
Lemma fill_ecb enc iv c len : (c + N.of_nat (nblock len) <= 2 ^ 64)%N ->
  fst (fill enc ECB iv c len) = firstn len (to_mem (map (fun j => enc (c + N.of_nat j)%N) (seq 0 (nblock len)))).
Proof.
  intros H. unfold fill. cbn [fst]. destruct (Nat.eqb_spec (len mod 16) 0) as [E|E].
  - rewrite content_val by (apply le_128; exact H). unfold ecb. rewrite map_map. symmetry. apply firstn_all2.
    rewrite to_mem_length, map_length, seq_length, nblock_exact; auto.
  - destruct (nblock_part len E) as [L P]. set (nb := nblock len) in *. set (r := len mod 16) in *.
    assert (EB : (if 1 <? nb then to_mem (ecb enc (content c (nb - 1))) else []) = to_mem (map (fun j => enc (c + N.of_nat j)%N) (seq 0 (nb - 1)))).
    { destruct (Nat.ltb_spec 1 nb) as [Q|Q].
      - rewrite content_val by (apply le_128; lia). unfold ecb. rewrite map_map. reflexivity.
      - replace (nb - 1) with 0 by lia. reflexivity. }
    rewrite EB. rewrite L. replace (seq 0 nb) with (seq 0 (nb - 1) ++ [nb - 1]).
    2:{ change [nb - 1] with [0 + (nb - 1)]. rewrite <- seq_S. f_equal. lia. }
    rewrite map_app, to_mem_app, firstn_app. rewrite to_mem_length, map_length, seq_length.
    rewrite (firstn_all2 (to_mem _)) by (rewrite to_mem_length, map_length, seq_length; lia). f_equal.
    replace (16 * (nb - 1) + r - 16 * (nb - 1)) with r by lia. cbn [map to_mem flat_map]. rewrite app_nil_r.
    f_equal. f_equal. f_equal. rewrite N.mod_small by lia. lia.
Qed.
Lemma fill_ctr enc iv c len :
  fst (fill enc CTR iv c len) = firstn len (to_mem (map (fun j => enc (ctr_in c j)) (seq 0 (nblock len)))).
Proof. reflexivity. Qed.
Lemma fill_cbc enc iv c len : (c + N.of_nat (nblock len) <= 2 ^ 64)%N ->
  fst (fill enc CBC iv c len) = firstn len (to_mem (cbc enc iv (map (fun j => (c + N.of_nat j)%N) (seq 0 (nblock len))))).
Proof.
  intros H. unfold fill. cbn [fst]. rewrite content_val by (apply le_128; exact H).
  destruct (Nat.eqb_spec (len mod 16) 0) as [E|E]; auto. symmetry. apply firstn_all2.
  rewrite to_mem_length, cbc_length, map_length, seq_length, nblock_exact; auto.
Qed.
Lemma fill_length enc m iv c len : (m = CTR \/ (c + N.of_nat (nblock len) <= 2 ^ 64)%N) -> length (fst (fill enc m iv c len)) = len.
Proof.
  intros H. pose proof (nblock_bounds len) as [B _].
  destruct m.
  - destruct H as [H|H]; [discriminate|]. rewrite fill_ecb by exact H. rewrite firstn_length, to_mem_length, map_length, seq_length. lia.
  - destruct H as [H|H]; [discriminate|]. rewrite fill_cbc by exact H. rewrite firstn_length, to_mem_length, cbc_length, map_length, seq_length. lia.
  - rewrite fill_ctr, firstn_length, to_mem_length, map_length, seq_length. lia.
Qed.

(** ** The counter blocks of CTR *)
Lemma rev_lt l : Forall (fun b => (b < 256)%N) l -> Forall (fun b => (b < 256)%N) (rev l).
Proof. intros H. apply Forall_rev. exact H. Qed.
Definition swap (v : N) : N := le_val (rev (le_bytes 16 v)).
Lemma swap_lt v : (swap v < 2 ^ 128)%N.
Proof.
  unfold swap. pose proof (le_val_lt (rev (le_bytes 16 v)) (rev_lt _ (le_bytes_lt 16 v))) as H.
  rewrite rev_length, le_bytes_length in H. exact H.
Qed.
Lemma swap_swap v : (v < 2 ^ 128)%N -> swap (swap v) = v.
Proof.
  intros H. unfold swap at 1. unfold swap.
  replace 16 with (length (rev (le_bytes 16 v))) at 1 by (rewrite rev_length; apply le_bytes_length).
  rewrite le_bytes_val by (apply rev_lt, le_bytes_lt). rewrite rev_involutive, le_val_bytes. apply N.mod_small. exact H.
Qed.
Lemma le_bytes_app k k' : forall v, le_bytes (k + k') v = le_bytes k v ++ le_bytes k' (v / 2 ^ (8 * N.of_nat k))%N.
Proof.
  induction k as [|k IH]; intros v.
  - cbn [Nat.add le_bytes app]. change (2 ^ (8 * N.of_nat 0))%N with 1%N. rewrite N.div_1_r. reflexivity.
  - cbn [Nat.add le_bytes app]. rewrite IH. rewrite N.div_div by (discriminate || (apply N.pow_nonzero; discriminate)). rewrite pow8_S. reflexivity.
Qed.
Lemma le_bytes_0 k : le_bytes k 0 = repeat 0%N k.
Proof. induction k as [|k IH]; cbn; auto. rewrite IH. reflexivity. Qed.
Lemma le_val_repeat k : le_val (repeat 0%N k) = 0%N.
Proof. induction k as [|k IH]; cbn [repeat]; auto. rewrite le_val_cons, IH. reflexivity. Qed.
(** A 64-bit value becomes a multiple of 2^64. *)
Lemma swap_small v : (v < 2 ^ 64)%N -> exists u, swap v = (2 ^ 64 * u)%N /\ (u < 2 ^ 64)%N.
Proof.
  intros H. unfold swap. rewrite (le_bytes_app 8 8 v : le_bytes 16 v = _). change (8 * N.of_nat 8)%N with 64%N.
  rewrite N.div_small by exact H. rewrite le_bytes_0, rev_app_distr, le_val_app.
  replace (rev (repeat 0%N 8)) with (repeat 0%N 8) by reflexivity. rewrite le_val_repeat, repeat_length.
  exists (le_val (rev (le_bytes 8 v))). split; [reflexivity|].
  pose proof (le_val_lt (rev (le_bytes 8 v)) (rev_lt _ (le_bytes_lt 8 v))) as K. rewrite rev_length, le_bytes_length in K. exact K.
Qed.
Lemma ctr_in_swap c j : ctr_in c j = swap ((swap c + N.of_nat j) mod 2 ^ 128).
Proof. reflexivity. Qed.
Lemma lt_64_128 v : (v < 2 ^ 64)%N -> (v < 2 ^ 128)%N.
Proof. intros H. apply (N.lt_trans _ (2 ^ 64)); [exact H|reflexivity]. Qed.
Lemma ctr_in_inj c j c' j' : (c < 2 ^ 64)%N -> (c' < 2 ^ 64)%N -> (N.of_nat j < 2 ^ 64)%N -> (N.of_nat j' < 2 ^ 64)%N ->
  ctr_in c j = ctr_in c' j' -> c = c' /\ j = j'.
Proof.
  intros C C' J J' E. rewrite !ctr_in_swap in E. apply (f_equal swap) in E.
  rewrite !swap_swap in E by (apply N.mod_lt; discriminate).
  destruct (swap_small c C) as (u & U & Lu). destruct (swap_small c' C') as (u' & U' & Lu'). rewrite U, U' in E.
  set (P := (2 ^ 64)%N) in *. assert (EP : (2 ^ 128 = P * P)%N) by reflexivity. rewrite EP in E.
  rewrite !N.mod_small in E by nia. assert (u = u') by nia. subst u'. assert (N.of_nat j = N.of_nat j') by lia.
  split; [|lia]. rewrite <- (swap_swap c), <- (swap_swap c'), U, U' by (apply lt_64_128; auto). reflexivity.
Qed.
