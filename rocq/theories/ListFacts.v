(** Small list lemmas. *)
From Coq Require Import List Arith Lia.
From Verif Require Import Arr.
Import ListNotations.

Lemma nth_map_in {A B} (f : A -> B) (l : list A) k d d' : k < length l -> nth k (map f l) d' = f (nth k l d).
Proof. intros H. rewrite (nth_indep (map f l) d' (f d)) by (rewrite map_length; auto). apply map_nth. Qed.
Lemma nth_map_seq {A} (f : nat -> A) n k d : k < n -> nth k (map f (seq 0 n)) d = f k.
Proof. intros H. rewrite (nth_map_in f _ k 0) by (rewrite seq_length; auto). rewrite seq_nth by auto. reflexivity. Qed.
Lemma map_nth_seq {A} (d : A) (l : list A) : map (fun k => nth k l d) (seq 0 (length l)) = l.
Proof.
  apply nth_ext with d d; rewrite map_length, seq_length; auto. intros k Hk. rewrite nth_map_seq by auto. reflexivity.
Qed.
Lemma all_idx_1 n : all_idx [n] = map (fun k => [k]) (seq 0 n).
Proof. cbn [all_idx]. induction (seq 0 n) as [|k l IH]; [reflexivity|]. cbn [flat_map map app]. f_equal. Qed.
Lemma ravel_vec {A} (d : A) l : ravel (vec d l) = l.
Proof. unfold ravel, vec. cbn [shp get]. rewrite all_idx_1, map_map. apply map_nth_seq. Qed.
