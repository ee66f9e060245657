(** Encodings of public keys (C86) and hexadecimal strings (C87). *)
From Verif Require Import PyBase Wire Protos Crypto Ecc Hex SpecPoint.

Lemma decode_accepts bs off k :
  decodePoint bs off = Ok k <->
  head bs = Some x05 /\ exists a b, bs = a ++ x05 :: k ++ b /\ length a = off /\ (length k = 32 \/ (length k < 32 /\ b = [])).
Proof.
  unfold decodePoint. destruct bs as [|b0 t]; [by split; [|intros [? _]]|]. cbn [head].
  destruct (bool_decide_reflect (b0 = x05)) as [->|Hn]; [|split; [done|by intros [[= ->] _]]].
  set (bs := x05 :: t). destruct (bs !! off) as [c|] eqn:E.
  - destruct (bool_decide_reflect (c = x05)) as [->|Hn].
    + split.
      * intros [= <-]. split; [done|]. exists (take off bs), (drop 32 (drop (off + 1) bs)).
        rewrite take_drop. split; [|split].
        -- rewrite Nat.add_1_r. rewrite <- (take_drop_middle bs off x05) at 1 by done. done.
        -- apply lookup_lt_Some in E. rewrite take_length. lia.
        -- rewrite take_length. destruct (decide (32 <= length (drop (off + 1) bs))); [left; lia|]. right.
           split; [lia|]. apply drop_ge. lia.
      * intros (_ & a & b & Hbs & <- & Hk). rewrite Hbs. f_equal. rewrite drop_app_ge by lia.
        replace (length a + 1 - length a) with 1 by lia. cbn. rewrite drop_0.
        destruct Hk as [Hk|[Hk ->]]; [by rewrite take_app_alt|]. rewrite app_nil_r. apply take_ge. lia.
    + split; [done|]. intros (_ & a & b & Hbs & <- & _). rewrite Hbs, lookup_app_r, Nat.sub_diag in E by lia. injection E as <-. done.
  - split; [done|]. intros (_ & a & b & Hbs & <- & _). rewrite Hbs, lookup_app_r, Nat.sub_diag in E by lia. done.
Qed.

Lemma decode_encoded bs off k : encoded_at bs off k -> head bs = Some x05 -> decodePoint bs off = Ok k.
Proof. intros (a & b & -> & <- & Hk) Hh. apply decode_accepts. split; [done|]. exists a, b. auto. Qed.
Lemma decode_first k rest : length k = 32 -> decodePoint (pub_serialize k ++ rest) 0 = Ok k.
Proof. intros. apply decode_encoded; [|done]. exists [], rest. done. Qed.
Lemma decode_refuses bs off e : decodePoint bs off = Err e -> (e = EInvalidKey \/ e = EIndexError) /\ (head bs = Some x05 -> forall k, ~ encoded_at bs off k).
Proof.
  intros H. split.
  - destruct (decodePoint_err _ _ _ H); auto.
  - intros Hh k Hk. rewrite (decode_encoded _ _ _ Hk Hh) in H. done.
Qed.
Lemma decode_index bs off : decodePoint bs off = Err EIndexError <-> bs = [] \/ (head bs = Some x05 /\ length bs <= off).
Proof.
  unfold decodePoint. destruct bs as [|b0 t]; [split; auto|]. cbn [head].
  destruct (bool_decide_reflect (b0 = x05)) as [->|Hn].
  - destruct ((x05 :: t) !! off) as [c|] eqn:E.
    + apply lookup_lt_Some in E. split; [by case_match|]. intros [|[_ ?]]; [done|lia].
    + apply lookup_ge_None in E. split; auto.
  - split; [done|]. intros [|[[= ->] _]]; done.
Qed.
Lemma encoded_unique bs off k k' : encoded_at bs off k -> encoded_at bs off k' -> k = k'.
Proof.
  intros (a & b & -> & Ha & Hk) (a' & b' & E & Ha' & Hk'). apply app_inj_1 in E as [_ E]; [|lia]. injection E as E.
  by apply app_inj_1 in E as [-> _]; [|lia].
Qed.
Lemma offset_refuted : exists bs off k, encoded_at bs off k /\ decodePoint bs off = Err EInvalidKey.
Proof.
  exists (x00 :: pub_serialize (replicate 32 x07)), 1, (replicate 32 x07). split; [|done].
  exists [x00], []. rewrite app_nil_r. done.
Qed.
Lemma short_refuted : exists bs k, decodePoint bs 0 = Ok k /\ forall k', ~ encoded_at bs 0 k'.
Proof.
  exists [x05; x07], [x07]. split; [done|]. intros k' (a & b & E & Ha & Hk). apply (f_equal length) in E. rewrite app_length in E. cbn in E.
  rewrite app_length in E. lia.
Qed.

(** Hexadecimal strings. *)
Lemma hexdigit_spells d v : hexdigit d = Some v <-> spells d v.
Proof.
  split.
  - intros H. destruct d; vm_compute in H; first [discriminate | injection H as <-; first [left; vm_compute; reflexivity | right; vm_compute; reflexivity]].
  - intros [H|H]; rewrite <- (N2Nat.id v); revert H; generalize (N.to_nat v); intros n H;
      do 16 (destruct n as [|n]; [vm_compute in H; injection H as <-; vm_compute; reflexivity|]); done.
Qed.
Lemma spells_lt d v : spells d v -> (v < 16)%N.
Proof. intros [H|H]; apply lookup_lt_Some in H; cbn in H; lia. Qed.
Lemma two_digits b : (b2n b / 16 * 16 + b2n b mod 16 = b2n b)%N.
Proof. rewrite N.mul_comm. symmetry. by apply N.div_mod. Qed.

Lemma hex_decodes s bs : spelled s bs -> decodeHex s = Ok bs.
Proof.
  induction 1 as [|h l s b bs Hh Hl _ IH]; [done|]. cbn [decodeHex].
  apply hexdigit_spells in Hh. apply hexdigit_spells in Hl. rewrite Hh, Hl, IH, bind_ok, two_digits, n2b_b2n. done.
Qed.
Lemma hex_inv n : forall s bs, length s <= n -> decodeHex s = Ok bs -> spelled s bs.
Proof.
  induction n as [|n IH]; intros s bs Hn.
  - destruct s; [|cbn in Hn; lia]. intros [= <-]. constructor.
  - destruct s as [|h [|l s]]; [intros [= <-]; constructor|done|]. cbn [decodeHex length] in *.
    destruct (hexdigit h) as [vh|] eqn:Eh; [|done]. destruct (hexdigit l) as [vl|] eqn:El; [|done].
    destruct (decodeHex s) as [r|] eqn:Er; [|done]. rewrite bind_ok. intros [= <-].
    apply hexdigit_spells in Eh. apply hexdigit_spells in El.
    pose proof (spells_lt _ _ Eh). pose proof (spells_lt _ _ El).
    constructor; [| |apply IH; [lia|done]]; rewrite b2n_n2b_small by lia.
    + rewrite N.div_add_l by lia. by rewrite N.div_small, N.add_0_r.
    + rewrite N.add_comm, N.mod_add by lia. by rewrite N.mod_small.
Qed.
Lemma hex_exact s bs : decodeHex s = Ok bs <-> spelled s bs.
Proof. split; [apply (hex_inv (length s)); lia|apply hex_decodes]. Qed.
Lemma hex_err n : forall s e, length s <= n -> decodeHex s = Err e ->
  e = EValueError /\ (Nat.Odd (length s) \/ exists d, d ∈ s /\ forall v, ~ spells d v).
Proof.
  induction n as [|n IH]; intros s e Hn.
  - destruct s; [done|cbn in Hn; lia].
  - destruct s as [|h [|l s]]; [done| |]; cbn [decodeHex length] in *.
    + intros [= <-]. split; [done|]. left. by exists 0.
    + destruct (hexdigit h) as [vh|] eqn:Eh.
      2: { intros [= <-]. split; [done|]. right. exists h. split; [left|]. intros v Hv%hexdigit_spells. congruence. }
      destruct (hexdigit l) as [vl|] eqn:El.
      2: { intros [= <-]. split; [done|]. right. exists l. split; [right; left|]. intros v Hv%hexdigit_spells. congruence. }
      destruct (decodeHex s) as [r|e'] eqn:Er; [done|]. rewrite bind_err. intros [= <-].
      destruct (IH s e' ltac:(lia) Er) as (-> & [Ho|(d & Hd & Hs)]); split; try done.
      * left. destruct Ho as [m Hm]. exists (S m). lia.
      * right. exists d. split; [by do 2 right|done].
Qed.
Lemma spelled_good s bs : spelled s bs -> length s = 2 * length bs /\ Forall (fun d => exists v, spells d v) s.
Proof. induction 1 as [|h l s b bs Hh Hl _ [IH1 IH2]]; [done|]. cbn. split; [lia|]. eauto. Qed.
Lemma hex_refuses s : decodeHex s = Err EValueError <-> Nat.Odd (length s) \/ exists d, d ∈ s /\ forall v, ~ spells d v.
Proof.
  split; [intros H; by destruct (hex_err (length s) s _ ltac:(lia) H)|]. intros H. destruct (decodeHex s) as [bs|e] eqn:E.
  - apply hex_exact, spelled_good in E as [Hl Hf]. destruct H as [[m Hm]|(d & Hd & Hs)]; [lia|].
    rewrite Forall_forall in Hf. destruct (Hf d Hd) as [v Hv]. by destruct (Hs v).
  - by destruct (hex_err (length s) s _ ltac:(lia) E) as [-> _].
Qed.
Lemma hex_only s e : decodeHex s = Err e -> e = EValueError.
Proof. intros H. by destruct (hex_err (length s) s _ ltac:(lia) H). Qed.
Lemma lower_spells v : (v < 16)%N -> spells (default x00 (lower !! N.to_nat v)) v.
Proof.
  intros Hv. left. destruct (lookup_lt_is_Some_2 lower (N.to_nat v)) as [d Hd]; [cbn; lia|]. by rewrite Hd.
Qed.
Lemma hex_roundtrip bs : decodeHex (hexlify bs) = Ok bs.
Proof.
  apply hex_decodes. induction bs as [|b bs IH]; [constructor|]. cbn [hexlify mbind list_bind app]. constructor; [| |exact IH].
  - apply lower_spells. pose proof (b2n_lt b). apply N.div_lt_upper_bound; lia.
  - apply lower_spells, N.mod_lt. done.
Qed.
