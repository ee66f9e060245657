(** The comparisons of public keys: C100. *)
From Verif Require Import PyBase Protos Crypto Ecc UtilFacts Compare.

Lemma cmp_agrees a b : length a = 32 -> length b = 32 ->
  (pub_cmp a b = Ok (-1)%Z /\ pub_lt a b = Ok true /\ pub_gt a b = Ok false /\ pub_eqb a b = false) \/
  (pub_cmp a b = Ok 0%Z /\ pub_lt a b = Ok false /\ pub_gt a b = Ok false /\ pub_eqb a b = true) \/
  (pub_cmp a b = Ok 1%Z /\ pub_lt a b = Ok false /\ pub_gt a b = Ok true /\ pub_eqb a b = false).
Proof.
  intros Ha Hb. unfold pub_gt, pub_eqb. destruct (decide (a = b)) as [<-|Hne].
  - right; left. rewrite bool_decide_eq_true_2 by done. rewrite !pub_lt_irrefl by done. split_and!; try done.
    pose proof (pub_lt_irrefl a Ha) as H. unfold pub_lt in H. unfold pub_cmp. rewrite unpack8i_ints in * by done.
    rewrite !bind_ok in *. injection H as ->. by rewrite bool_decide_eq_true_2.
  - rewrite bool_decide_eq_false_2 by done.
    destruct (pub_lt_total a b Ha Hb Hne) as [[H1 H2]|[H1 H2]]; [left|right; right]; rewrite H1, H2; split_and!; try done;
      unfold pub_lt in *; unfold pub_cmp; rewrite !unpack8i_ints in * by done; rewrite !bind_ok in *; injection H1 as ->; [done|].
    injection H2 as H2. rewrite bool_decide_eq_false_2; [done|]. intros E. rewrite E in H2.
    pose proof (pub_lt_irrefl b Hb) as H. unfold pub_lt in H. rewrite unpack8i_ints in H by done. rewrite !bind_ok in H. congruence.
Qed.
Lemma cmp_turned a b t : pub_cmp a b = Ok t -> pub_cmp b a = Ok (- t)%Z.
Proof.
  intros H. destruct (decide (length a = 32)) as [Ha|Ha]; [|by unfold pub_cmp in H; rewrite (unpack8i_err a) in H].
  destruct (decide (length b = 32)) as [Hb|Hb]; [|by unfold pub_cmp in H; rewrite (unpack8i_ints a), (unpack8i_err b) in H by done].
  destruct (cmp_agrees a b Ha Hb) as [(H1 & H2 & H3 & H4)|[(H1 & H2 & H3 & H4)|(H1 & H2 & H3 & H4)]];
    destruct (cmp_agrees b a Hb Ha) as [(G1 & G2 & G3 & G4)|[(G1 & G2 & G3 & G4)|(G1 & G2 & G3 & G4)]];
    unfold pub_gt in *; rewrite H1 in H; injection H as <-; rewrite G1; congruence || done.
Qed.
Lemma cmp_raises a b : length a <> 32 \/ length b <> 32 ->
  pub_cmp a b = Err EStructError /\ pub_lt a b = Err EStructError /\ pub_gt a b = Err EStructError.
Proof.
  intros H. unfold pub_gt. rewrite !pub_lt_err by tauto. split_and!; try done. unfold pub_cmp.
  destruct (decide (length a = 32)) as [Ha|Ha]; [|by rewrite (unpack8i_err a)].
  destruct H as [?|Hb]; [done|]. by rewrite (unpack8i_ints a), (unpack8i_err b).
Qed.
Lemma eq_refines a b : pub_eqb a b = true <-> a = b.
Proof. apply bool_decide_eq_true. Qed.
