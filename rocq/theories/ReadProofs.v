(** The parsers read what the wire format says: C90. *)
From Verif Require Import PyBase Wire Protos Crypto Ecc Kdf Messages State Prog StateFacts ProtoFacts HelperFacts MsgFacts SpecMsg SpecPoint PointProofs SpecRead.

(** ** Numbers *)

Lemma varint_nonnil b n : varint b n -> b <> [].
Proof. by destruct 1. Qed.
Lemma varint_dec_complete b n r : varint b n -> varint_dec (b ++ r) = Some (n, length b, bool_decide (last b = Some x00), r).
Proof.
  induction 1 as [b Hb|b bs n Hb Hv IH]; cbn [app varint_dec length].
  - rewrite (proj2 (N.ltb_lt _ _)) by done. do 3 f_equal. cbn [last].
    destruct (N.eqb_spec (b2n b) 0) as [E|E]; symmetry; [apply bool_decide_eq_true|apply bool_decide_eq_false].
    + f_equal. apply b2n_inj. exact E.
    + intros [= ->]. by apply E.
  - rewrite (proj2 (N.ltb_ge _ _)) by done. rewrite IH. do 3 f_equal.
    assert (last (b :: bs) = last bs) as ->; [|done]. destruct bs; [by inversion Hv|done].
Qed.
Lemma varint_dec_sound bs n c z r : varint_dec bs = Some (n, c, z, r) ->
  exists b, bs = b ++ r /\ varint b n /\ c = length b /\ z = bool_decide (last b = Some x00).
Proof.
  revert n c z r. induction bs as [|b bs IH]; intros n c z r; cbn [varint_dec]; [done|].
  destruct (N.ltb_spec (b2n b) 128) as [Hb|Hb].
  - intros [= <- <- <- <-]. exists [b]. split_and!; [done|by constructor|done|]. cbn [last].
    destruct (N.eqb_spec (b2n b) 0) as [E|E]; symmetry; [apply bool_decide_eq_true|apply bool_decide_eq_false].
    + f_equal. apply b2n_inj. exact E.
    + intros [= ->]. by apply E.
  - destruct (varint_dec bs) as [[[[v c'] z'] r']|] eqn:E; [|done]. intros [= <- <- <- <-].
    destruct (IH _ _ _ _ eq_refl) as (b' & -> & Hv & -> & ->). exists (b :: b'). split_and!; [done|by constructor|done|].
    assert (last (b :: b') = last b') as ->; [|done]. destruct b'; [by inversion Hv|done].
Qed.

Lemma tag_nonnil t num k : tag t num k -> t <> [].
Proof. intros [H _]. by eapply varint_nonnil. Qed.
Lemma dec_tag_complete t num k r : tag t num k -> dec_tag (t ++ r) = Some (num, k, r).
Proof.
  intros (Hv & Hk & Hn & Hl). unfold dec_tag. rewrite (varint_dec_complete _ _ r Hv).
  rewrite (proj2 (Nat.leb_le _ _)) by done. rewrite (proj2 (N.ltb_lt _ _)) by lia.
  assert (((num * 8 + k) / 8 = num)%N /\ ((num * 8 + k) mod 8 = k)%N) as [-> ->].
  { split; [rewrite N.div_add_l by lia; rewrite N.div_small by done; lia|].
    rewrite N.add_comm, N.mod_add by lia. by apply N.mod_small. }
  rewrite (proj2 (N.eqb_neq _ _)) by lia. done.
Qed.
Lemma dec_tag_sound bs num k r : dec_tag bs = Some (num, k, r) -> exists t, bs = t ++ r /\ tag t num k.
Proof.
  unfold dec_tag. destruct (varint_dec bs) as [[[[v c] z] r']|] eqn:E; [|done].
  apply varint_dec_sound in E as (b & -> & Hv & -> & _).
  destruct (Nat.leb_spec (length b) 5) as [Hl|]; [|done]. destruct (N.ltb_spec v (2 ^ 32)) as [Hv32|]; [|done].
  destruct (N.eqb_spec (v / 8) 0) as [|Hn]; [done|]. cbn [andb negb]. intros [= <- <- <-]. exists b. split; [done|].
  pose proof (N.div_mod v 8 ltac:(lia)) as Hd. pose proof (N.mod_lt v 8 ltac:(lia)). split; [by replace (v / 8 * 8 + v mod 8)%N with v by lia|].
  split; [done|]. split; [|done]. split; [lia|]. apply N.div_lt_upper_bound; [lia|]. exact Hv32.
Qed.

Lemma dec_value_sound bs v r : dec_value bs = Some (v, r) -> exists b n, bs = b ++ r /\ varint b n /\ length b <= 10 /\ v = (n mod 2 ^ 64)%N.
Proof.
  unfold dec_value. destruct (varint_dec bs) as [[[[n c] z] r']|] eqn:E; [|done].
  apply varint_dec_sound in E as (b & -> & Hv & -> & _). destruct (Nat.leb_spec (length b) 10); [|done]. intros [= <- <-]. eauto 10.
Qed.
Lemma dec_value_complete b n r : varint b n -> length b <= 10 -> dec_value (b ++ r) = Some ((n mod 2 ^ 64)%N, r).
Proof. intros Hv Hl. unfold dec_value. rewrite (varint_dec_complete _ _ r Hv). by rewrite (proj2 (Nat.leb_le _ _)). Qed.

Lemma little_le bs : little bs = le_dec bs.
Proof. reflexivity. Qed.
Lemma dec_fixed_sound k bs v r : dec_fixed k bs = Some (v, r) -> exists b, bs = b ++ r /\ length b = k /\ v = little b.
Proof.
  unfold dec_fixed. destruct (Nat.leb_spec k (length bs)) as [Hk|]; [|done]. intros [= <- <-]. exists (take k bs).
  split_and!; [by rewrite take_drop|rewrite take_length; lia|by rewrite <- little_le].
Qed.
Lemma dec_fixed_complete k b r : length b = k -> dec_fixed k (b ++ r) = Some (little b, r).
Proof.
  intros <-. unfold dec_fixed. rewrite app_length, (proj2 (Nat.leb_le _ _)) by lia. by rewrite take_app, drop_app, <- little_le.
Qed.
Lemma dec_len_sound bs b r : dec_len bs = Some (b, r) ->
  exists l, bs = l ++ b ++ r /\ varint l (N.of_nat (length b)) /\ (length l <= 10 \/ last l <> Some x00).
Proof.
  unfold dec_len. destruct (varint_dec bs) as [[[[n c] z] r']|] eqn:E; [|done].
  apply varint_dec_sound in E as (l & -> & Hv & -> & ->).
  destruct (Nat.ltb_spec 10 (length l)) as [Hl|Hl]; cbn [andb].
  - destruct (bool_decide (last l = Some x00)) eqn:Ez; [done|]. apply bool_decide_eq_false in Ez.
    destruct (N.leb_spec n (N.of_nat (length r'))) as [Hn|]; [|done]. intros [= <- <-]. exists l. rewrite take_drop. split_and!; [done| |by right].
    rewrite take_length, Nat.min_l by lia. by rewrite N2Nat.id.
  - destruct (N.leb_spec n (N.of_nat (length r'))) as [Hn|]; [|done]. intros [= <- <-]. exists l. rewrite take_drop. split_and!; [done| |by left].
    rewrite take_length, Nat.min_l by lia. by rewrite N2Nat.id.
Qed.
Lemma dec_len_complete l b r : varint l (N.of_nat (length b)) -> (length l <= 10 \/ last l <> Some x00) -> dec_len (l ++ b ++ r) = Some (b, r).
Proof.
  intros Hv Hl. unfold dec_len. rewrite (varint_dec_complete _ _ _ Hv).
  assert ((10 <? length l)%nat && bool_decide (last l = Some x00) = false) as ->.
  { destruct Hl as [Hl|Hl]; [by rewrite (proj2 (Nat.ltb_ge _ _))|]. rewrite bool_decide_eq_false_2 by done. apply andb_false_r. }
  rewrite (proj2 (N.leb_le _ _)) by (rewrite app_length; lia). by rewrite Nat2N.id, take_app, drop_app.
Qed.

(** ** Fields *)

Lemma dec_fields_sound F grp bs fs e : dec_fields F grp bs = Some (fs, e) ->
  exists b, wire b fs /\ match grp with None => e = [] /\ bs = b | Some g => exists t, tag t g 4 /\ bs = b ++ t ++ e end.
Proof.
  revert grp bs fs e. induction F as [|F IH]; intros grp bs fs e; cbn [dec_fields]; [done|].
  destruct bs as [|x bs].
  { destruct grp; [done|]. intros [= <- <-]. exists []. split; [constructor|done]. }
  remember (x :: bs) as all eqn:Eall. clear Eall x bs.
  destruct (dec_tag all) as [[[num k] r]|] eqn:Et; [|done]. apply dec_tag_sound in Et as (t & -> & Ht).
  assert (forall (p : bytes) (v : wval) r', r = p ++ r' -> (forall b fs', wire b fs' -> wire (t ++ p ++ b) ((num, v) :: fs')) ->
    match dec_fields F grp r' with Some (fs, e) => Some ((num, v) :: fs, e) | None => None end = Some (fs, e) ->
    exists b, wire b fs /\ match grp with None => e = [] /\ t ++ r = b | Some g => exists t', tag t' g 4 /\ t ++ r = b ++ t' ++ e end) as Hnext.
  { intros p v r' -> Hw. destruct (dec_fields F grp r') as [[fs' e']|] eqn:E; [|done]. intros [= <- <-].
    destruct (IH _ _ _ _ E) as (b & Hb & Hg). exists (t ++ p ++ b). split; [by apply Hw|].
    destruct grp as [g|].
    - destruct Hg as (t' & Ht' & ->). exists t'. split; [done|]. by rewrite <- !app_assoc.
    - destruct Hg as [-> ->]. done. }
  assert (k < 8)%N as Hk by apply Ht.
  destruct k as [|[[[]|[]|]|[[]|[]|]|]]; try (exfalso; lia); try done.
  - destruct (dec_value r) as [[v r']|] eqn:E; [|done]. apply dec_value_sound in E as (b & n & -> & Hv & Hl & ->).
    apply (Hnext b); [done|]. intros. by constructor.
  - destruct (dec_fixed 4 r) as [[v r']|] eqn:E; [|done]. apply dec_fixed_sound in E as (b & -> & Hl & ->).
    apply (Hnext b); [done|]. intros. by constructor.
  - destruct (dec_fields F (Some num) r) as [[gs r']|] eqn:E; [|done].
    destruct (IH _ _ _ _ E) as (b & Hb & t' & Ht' & ->).
    apply (Hnext (b ++ t')); [by rewrite <- app_assoc|]. intros. rewrite <- app_assoc. by eapply wire_group.
  - destruct grp as [g|]; [|done]. destruct (N.eqb_spec g num) as [->|]; [|done]. intros [= <- <-]. exists []. split; [constructor|]. by exists t.
  - destruct (dec_len r) as [[b r']|] eqn:E; [|done]. apply dec_len_sound in E as (l & -> & Hl & Hp).
    apply (Hnext (l ++ b)); [by rewrite <- app_assoc|]. intros. rewrite <- app_assoc. by constructor.
  - destruct (dec_fixed 8 r) as [[v r']|] eqn:E; [|done]. apply dec_fixed_sound in E as (b & -> & Hl & ->).
    apply (Hnext b); [done|]. intros. by constructor.
Qed.

(** As much fuel as there are bytes is enough. *)
Lemma dec_fields_enough F grp bs x : dec_fields F grp bs = Some x -> forall F', length bs < F' -> dec_fields F' grp bs = Some x.
Proof.
  revert grp bs x. induction F as [|F IH]; intros grp bs x; [done|]. cbn [dec_fields]. intros H F' HF. destruct F' as [|F']; [lia|]. cbn [dec_fields].
  destruct bs as [|y bs]; [done|]. remember (y :: bs) as all eqn:Eall. clear Eall y bs.
  destruct (dec_tag all) as [[[num k] r]|] eqn:Et; [|done]. apply dec_tag_sound in Et as (t & -> & Ht).
  assert (length r < F') as Hr.
  { pose proof (tag_nonnil _ _ _ Ht). rewrite app_length in HF. destruct t; cbn in *; [done|lia]. }
  assert (forall v r', length r' <= length r ->
    match dec_fields F grp r' with Some (fs, e) => Some ((num, v) :: fs, e) | None => None end = Some x ->
    match dec_fields F' grp r' with Some (fs, e) => Some ((num, v) :: fs, e) | None => None end = Some x) as Hnext.
  { intros v r' Hl. destruct (dec_fields F grp r') as [y|] eqn:E; [|done]. by rewrite (IH _ _ _ E F' ltac:(lia)). }
  revert H. destruct k as [|[[[]|[]|]|[[]|[]|]|]]; try done.
  - destruct (dec_value r) as [[v r']|] eqn:E; [|done]. apply dec_value_sound in E as (b & n & -> & _). apply Hnext. rewrite app_length. lia.
  - destruct (dec_fixed 4 r) as [[v r']|] eqn:E; [|done]. apply dec_fixed_sound in E as (b & -> & _). apply Hnext. rewrite app_length. lia.
  - destruct (dec_fields F (Some num) r) as [[gs r']|] eqn:E; [|done]. rewrite (IH _ _ _ E F' Hr).
    apply dec_fields_sound in E as (b & _ & t' & _ & ->). apply Hnext. rewrite !app_length. lia.
  - destruct (dec_len r) as [[b r']|] eqn:E; [|done]. apply dec_len_sound in E as (l & -> & _). apply Hnext. rewrite !app_length. lia.
  - destruct (dec_fixed 8 r) as [[v r']|] eqn:E; [|done]. apply dec_fixed_sound in E as (b & -> & _). apply Hnext. rewrite app_length. lia.
Qed.

Lemma dec_fields_complete b fs : wire b fs -> forall grp rest out e F, dec_fields F grp rest = Some (out, e) ->
  exists F', dec_fields F' grp (b ++ rest) = Some (fs ++ out, e).
Proof.
  assert (forall t num k r, tag t num k -> exists y ys, t ++ r = y :: ys /\ dec_tag (y :: ys) = Some (num, k, r)) as Hhead.
  { intros t num k r Ht. pose proof (dec_tag_complete _ _ _ r Ht) as H. pose proof (tag_nonnil _ _ _ Ht).
    destruct t as [|y ys]; [done|]. by exists y, (ys ++ r). }
  induction 1 as [|t num v n bs fs Ht Hv Hl Hw IH|t num b bs fs Ht Hl Hw IH|t num l b bs fs Ht Hv Hl Hw IH|t num b gs t' bs fs Ht Hg IHg Ht' Hw IH|t num b bs fs Ht Hl Hw IH];
    intros grp rest out e F HF.
  - by exists F.
  - destruct (IH _ _ _ _ _ HF) as [F' HF']. exists (S F'). rewrite <- !app_assoc. destruct (Hhead _ _ _ (v ++ bs ++ rest) Ht) as (y & ys & -> & E).
    cbn [dec_fields]. rewrite E, (dec_value_complete v n) by done. by rewrite HF'.
  - destruct (IH _ _ _ _ _ HF) as [F' HF']. exists (S F'). rewrite <- !app_assoc. destruct (Hhead _ _ _ (b ++ bs ++ rest) Ht) as (y & ys & -> & E).
    cbn [dec_fields]. rewrite E, dec_fixed_complete by done. by rewrite HF'.
  - destruct (IH _ _ _ _ _ HF) as [F' HF']. exists (S F'). rewrite <- !app_assoc. destruct (Hhead _ _ _ (l ++ b ++ bs ++ rest) Ht) as (y & ys & -> & E).
    cbn [dec_fields]. rewrite E, dec_len_complete by done. by rewrite HF'.
  - destruct (IH _ _ _ _ _ HF) as [F' HF'].
    assert (dec_fields 1 (Some num) (t' ++ bs ++ rest) = Some ([], bs ++ rest)) as Hend.
    { destruct (Hhead _ _ _ (bs ++ rest) Ht') as (y & ys & -> & E). cbn [dec_fields]. rewrite E. by rewrite N.eqb_refl. }
    destruct (IHg _ _ _ _ _ Hend) as [G HG]. rewrite app_nil_r in HG.
    exists (S (S (length (b ++ t' ++ bs ++ rest)))). rewrite <- !app_assoc.
    destruct (Hhead _ _ _ (b ++ t' ++ bs ++ rest) Ht) as (y & ys & -> & E).
    set (K := S (length (b ++ t' ++ bs ++ rest))). cbn [dec_fields]. rewrite E.
    rewrite (dec_fields_enough _ _ _ _ HG K) by lia. rewrite (dec_fields_enough _ _ _ _ HF' K); [done|].
    unfold K. rewrite !app_length. lia.
  - destruct (IH _ _ _ _ _ HF) as [F' HF']. exists (S F'). rewrite <- !app_assoc. destruct (Hhead _ _ _ (b ++ bs ++ rest) Ht) as (y & ys & -> & E).
    cbn [dec_fields]. rewrite E, dec_fixed_complete by done. by rewrite HF'.
Qed.

Lemma parse_wire bs fs : parse_raw bs = Ok fs <-> wire bs fs.
Proof.
  unfold parse_raw. split.
  - destruct (dec_fields _ None bs) as [[fs' e]|] eqn:E; [|done]. intros [= <-].
    apply dec_fields_sound in E as (b & Hb & -> & ->). done.
  - intros Hw. destruct (dec_fields_complete bs fs Hw None [] [] [] 1 eq_refl) as [F HF]. rewrite !app_nil_r in HF.
    by rewrite (dec_fields_enough _ _ _ _ HF (S (length bs))) by lia.
Qed.
Lemma wire_unique bs fs fs' : wire bs fs -> wire bs fs' -> fs = fs'.
Proof. intros H1%parse_wire H2%parse_wire. rewrite H1 in H2. by injection H2. Qed.
Lemma parse_not bs : (exists fs, wire bs fs) \/ parse_raw bs = Err EDecodeError.
Proof.
  destruct (parse_raw bs) as [fs|e] eqn:E; [left; exists fs; by apply parse_wire|right]. by rewrite (parse_raw_err _ _ E).
Qed.

(** ** Messages *)

Lemma the_bytes_snoc k fs num v : the_bytes k (fs ++ [(num, v)]) =
  match v with WLen b => if decide (num = k) then Some b else the_bytes k fs | _ => the_bytes k fs end.
Proof.
  unfold the_bytes. rewrite omap_app. cbn [omap list_omap fst snd].
  destruct v; cbn; rewrite ?app_nil_r; try done. destruct (decide (num = k)); [by rewrite last_snoc|by rewrite app_nil_r].
Qed.
Lemma the_number_snoc k fs num v : the_number k (fs ++ [(num, v)]) =
  match v with WVar n => if decide (num = k) then Some (u32 n) else the_number k fs | _ => the_number k fs end.
Proof.
  unfold the_number. rewrite omap_app. cbn [omap list_omap fst snd].
  destruct v; cbn; rewrite ?app_nil_r; try done. destruct (decide (num = k)); [by rewrite last_snoc|by rewrite app_nil_r].
Qed.

Ltac by_field := intros fs; induction fs as [|[num v] fs IH] using rev_ind; [done|];
  rewrite fold_fields_app, IH; cbn [mbind res_bind fold_fields]; rewrite !the_bytes_snoc, !the_number_snoc;
  destruct v; try (by destruct num as [|[[[]|[]|]|[[]|[]|]|]]).
Lemma wm_fold : forall fs, fold_fields wm_step wm_empty fs = Ok (WmS (the_bytes 1 fs) (the_number 2 fs) (the_number 3 fs) (the_bytes 4 fs)).
Proof. by_field. Qed.
Lemma pk_fold : forall fs, fold_fields pk_step pk_empty fs =
  Ok (PkS (the_number 1 fs) (the_bytes 2 fs) (the_bytes 3 fs) (the_bytes 4 fs) (the_number 5 fs) (the_number 6 fs)).
Proof. by_field. Qed.
Lemma kx_fold : forall fs, fold_fields kx_step kx_empty fs =
  Ok (KxS (the_number 1 fs) (the_bytes 2 fs) (the_bytes 3 fs) (the_bytes 4 fs) (the_bytes 5 fs)).
Proof. by_field. Qed.
Lemma sk_fold : forall fs, fold_fields sk_step sk_empty fs = Ok (SkS (the_number 1 fs) (the_number 2 fs) (the_bytes 3 fs)).
Proof. by_field. Qed.
Lemma skd_fold : forall fs, fold_fields skd_step skd_empty fs =
  Ok (SkdS (the_number 1 fs) (the_number 2 fs) (the_bytes 3 fs) (the_bytes 4 fs)).
Proof. by_field. Qed.

Lemma decode_key b k : decodePoint b 0 = Ok k <-> key_in b k.
Proof.
  rewrite decode_accepts. split.
  - intros (_ & a & rest & -> & Ha & Hk). apply nil_length_inv in Ha as ->. by exists rest.
  - intros (rest & -> & Hk). split; [done|]. by exists [], rest.
Qed.
Lemma rethrow_ok {A} p e (r : res A) a : res_rethrow p e r = Ok a <-> r = Ok a.
Proof. destruct r; cbn; [done|]. by destruct (p e0). Qed.
Lemma high_claimed v : bu_highBitsToInt (b2n v) = claimed_version v.
Proof. apply high_spec, b2n_lt. Qed.
Lemma key_in_nonnil b k : key_in b k -> b <> [].
Proof. by intros (? & -> & _). Qed.

(** Two fields with contents take at least six bytes. *)
Fixpoint weight (n : N) (fs : list wfield) : nat :=
  match fs with [] => 0 | (num, WLen b) :: fs => (if decide (num = n) then 2 + length b else 0) + weight n fs | _ :: fs => weight n fs end.
Lemma weight_app n l1 l2 : weight n (l1 ++ l2) = weight n l1 + weight n l2.
Proof. induction l1 as [|[num []] l1 IH]; cbn; rewrite ?IH; lia. Qed.
Lemma the_bytes_weight n fs b : the_bytes n fs = Some b -> 2 + length b <= weight n fs.
Proof.
  revert b. induction fs as [|[num v] fs IH] using rev_ind; intros b; [done|]. rewrite the_bytes_snoc, weight_app.
  destruct v; intros H; try (specialize (IH _ H); lia). destruct (decide (num = n)) as [->|].
  - injection H as ->. cbn. rewrite decide_True by done. lia.
  - specialize (IH _ H). lia.
Qed.
Lemma wire_weight n n' b fs : n <> n' -> wire b fs -> weight n fs + weight n' fs <= length b.
Proof.
  intros Hn. induction 1 as [|t num v k bs fs Ht Hv Hl Hw IH|t num b bs fs Ht Hl Hw IH|t num l b bs fs Ht Hv Hl Hw IH|t num b gs t' bs fs Ht Hg IHg Ht' Hw IH|t num b bs fs Ht Hl Hw IH];
    cbn [weight]; rewrite ?app_length; try lia.
  pose proof (tag_nonnil _ _ _ Ht) as Ht'. pose proof (varint_nonnil _ _ Hv) as Hv'.
  destruct t; [done|]. destruct l; [done|]. cbn [length]. destruct (decide (num = n)), (decide (num = n')); try congruence; lia.
Qed.

Lemma parse_bind {A} (f : list wfield -> res A) bs a : (parse_raw bs ≫= f) = Ok a <-> exists fs, wire bs fs /\ f fs = Ok a.
Proof.
  split.
  - intros (fs & H & Hf)%bind_ok_inv. exists fs. by rewrite <- parse_wire.
  - intros (fs & H%parse_wire & Hf). by rewrite H.
Qed.

Lemma split3_short (v : Byte.byte) r (k : nat) : length r < k ->
  let '(p0, message, _) := bu_split3 (v :: r) 1 (zlen (v :: r) - 1 - Z.of_nat k) (Z.of_nat k) in
  p0 = [v] /\ length message <= length r + length r + 1 - k /\ (k = S (length r) -> length message = 0).
Proof.
  intros Hr. unfold bu_split3. rewrite slice_head. split; [done|]. unfold py_slice, py_norm, zlen. cbn [length].
  rewrite take_length, drop_length. cbn [length]. rewrite (proj2 (Z.ltb_ge 1 0)) by lia.
  destruct (Z.ltb_spec (1 + (Z.of_nat (S (length r)) - 1 - Z.of_nat k)) 0); split; lia.
Qed.
Lemma split3_long (v : Byte.byte) body t k : length t = k ->
  bu_split3 (v :: body ++ t) 1 (zlen (v :: body ++ t) - 1 - Z.of_nat k) (Z.of_nat k) = ([v], body, t).
Proof. intros <-. apply split3_frame. Qed.
Lemma cut (r : bytes) k : k <= length r -> exists body t, r = body ++ t /\ length t = k.
Proof. intros. exists (take (length r - k) r), (drop (length r - k) r). rewrite take_drop, drop_length. split; [done|lia]. Qed.

Lemma whisper_reads bs m : whisper_parse bs = Ok m <-> reads_whisper bs m.
Proof.
  destruct bs as [|v r].
  { split; [done|]. by intros (v & body & mac & fs & key & ? & _). }
  unfold whisper_parse. rewrite rethrow_ok. unfold whisper_parse_body. change MAC_LENGTH with (Z.of_nat 8).
  assert (forall body, (
    (if (bu_highBitsToInt (b2n v) <=? UNSUPPORTED_VERSION)%N then Err ELegacyMessage
      else if (CURRENT_VERSION <? bu_highBitsToInt (b2n v))%N then Err EInvalidMessage
      else
        m ← wm_parse body;
        if bytes_falsy (wm_ciphertext m) || bytes_falsy (wm_ratchetKey m) then Err EInvalidMessage
        else
          key ← decodePoint (default [] (wm_ratchetKey m)) 0;
          Ok (WhisperMessage key (bu_highBitsToInt (b2n v)) (default 0%N (wm_counter m))
                (default 0%N (wm_previousCounter m)) (default [] (wm_ciphertext m)) (v :: r))) = Ok m) <->
     exists fs key, (claimed_version v = 2 \/ claimed_version v = 3)%N /\ wire body fs /\
       the_bytes 1 fs = Some key /\ key_in key (wRatchetKey m) /\
       the_bytes 4 fs = Some (wBody m) /\ wBody m <> [] /\
       wCounter m = default 0%N (the_number 2 fs) /\ wPreviousCounter m = default 0%N (the_number 3 fs) /\
       wVersion m = claimed_version v /\ wSerialized m = v :: r) as Hbody.
  { intros body. rewrite !high_claimed. unfold UNSUPPORTED_VERSION, CURRENT_VERSION. split.
    - destruct (N.leb_spec (claimed_version v) 1); [done|]. destruct (N.ltb_spec 3 (claimed_version v)); [done|].
      intros (w & Hw & H')%bind_ok_inv. unfold wm_parse, wm_merge in Hw. apply parse_bind in Hw as (fs & Hfs & Hw).
      rewrite wm_fold in Hw. apply Ok_inj in Hw as ->. cbn [wm_ratchetKey wm_counter wm_previousCounter wm_ciphertext] in H'.
      destruct (the_bytes 4 fs) as [[|c cs]|] eqn:E4; try done. destruct (the_bytes 1 fs) as [[|k ks]|] eqn:E1; try done.
      cbn [bytes_falsy orb] in H'. rewrite !default_Some in H'. apply bind_ok_inv in H' as (key & Hkey%decode_key & H'). apply Ok_inj in H' as ->.
      exists fs, (k :: ks). cbn [wRatchetKey wBody wCounter wPreviousCounter wVersion wSerialized]. split_and!; try done. lia.
    - intros (fs & key & Hv & Hw & E1 & Hkey & E4 & Hne & Hc & Hp & HV & HS).
      rewrite (proj2 (N.leb_gt _ _)) by lia. rewrite (proj2 (N.ltb_ge _ _)) by lia.
      unfold wm_parse, wm_merge. rewrite (proj2 (parse_wire _ _) Hw), bind_ok, wm_fold, bind_ok.
      cbn [wm_ratchetKey wm_counter wm_previousCounter wm_ciphertext]. rewrite E1, E4, !falsy_nonnil by (done || by eapply key_in_nonnil).
      cbn [orb]. rewrite !default_Some. rewrite (proj2 (decode_key _ _) Hkey), bind_ok. destruct m. cbn in *. subst. done. }
  destruct (decide (8 <= length r)) as [Hr|Hr].
  - destruct (cut r 8 Hr) as (body & mac & -> & Hmac). rewrite split3_long by done. cbv beta iota zeta.
    rewrite Hbody. split.
    + intros (fs & key & Hv & H). exists v, body, mac, fs, key. auto.
    + intros (v' & body' & mac' & fs & key & [= <- E] & Hm' & H). apply app_inj_2 in E as [<- <-]; [|lia]. by exists fs, key.
  - pose proof (split3_short v r 8 ltac:(lia)) as Hs.
    destruct (bu_split3 _ _ _ _) as [[p0 message] p2]. destruct Hs as (-> & Hl & Hl0). cbv beta iota zeta. rewrite Hbody. split.
    + intros (fs & key & _ & Hw & E1 & Hkey & E4 & Hne & _).
      pose proof (wire_weight 1 4 _ _ ltac:(done) Hw). pose proof (the_bytes_weight _ _ _ E1). pose proof (the_bytes_weight _ _ _ E4).
      pose proof (key_in_nonnil _ _ Hkey). destruct key; [done|]. destruct (wBody m); [done|]. cbn [length] in *. lia.
    + intros (v' & body & mac & fs & key & [= -> ->] & Hm & _). rewrite app_length in Hr. lia.
Qed.

Lemma prekey_reads bs m : prekey_parse bs = Ok m <-> reads_prekey bs m.
Proof.
  destruct bs as [|v r].
  { split; [done|]. by intros (v & body & fs & base & identity & inner & ? & _). }
  unfold prekey_parse. rewrite rethrow_ok. unfold prekey_parse_body. rewrite !high_claimed. unfold CURRENT_VERSION. cbv zeta. split.
  - destruct (N.ltb_spec 3 (claimed_version v)); [done|]. destruct (N.ltb_spec (claimed_version v) 3); [done|].
    intros (w & Hw & H')%bind_ok_inv. unfold pk_parse, pk_merge in Hw. apply parse_bind in Hw as (fs & Hfs & Hw).
    rewrite pk_fold in Hw. apply Ok_inj in Hw as ->.
    cbn [pk_preKeyId pk_baseKey pk_identityKey pk_message pk_registrationId pk_signedPreKeyId] in H'.
    destruct (the_bytes 2 fs) as [[|b2 t2]|] eqn:E2; try done. destruct (the_bytes 3 fs) as [[|b3 t3]|] eqn:E3; try done.
    destruct (the_bytes 4 fs) as [[|b4 t4]|] eqn:E4; try done. cbn [bytes_falsy orb] in H'. rewrite !default_Some in H'.
    apply bind_ok_inv in H' as (base & Hbase%decode_key & H'). apply bind_ok_inv in H' as (ident & Hident%decode_key & H').
    apply bind_ok_inv in H' as (inner & Hinner%whisper_reads & H'). apply Ok_inj in H' as ->.
    exists v, r, fs, (b2 :: t2), (b3 :: t3), (b4 :: t4).
    cbn [pBaseKey pIdentityKey pMessage pRegistrationId pPreKeyId pSignedPreKeyId pVersion pSerialized].
    assert (claimed_version v = 3)%N by lia. do 13 (split; [done|]). done.
  - intros (v' & body & fs & base & ident & inner & [= <- <-] & Hv & Hw & E2 & Hb & E3 & Hi & E4 & Hm & Hreg & Hpk & Hsp & Hver & Hser).
    rewrite Hv. cbn [N.ltb N.compare]. unfold pk_parse, pk_merge. rewrite (proj2 (parse_wire _ _) Hw), bind_ok, pk_fold, bind_ok.
    cbn [pk_preKeyId pk_baseKey pk_identityKey pk_message pk_registrationId pk_signedPreKeyId].
    assert (inner <> []) by (by destruct Hm as (? & ? & ? & ? & ? & -> & _)).
    rewrite E2, E3, E4, !falsy_nonnil by (done || by eapply key_in_nonnil). cbn [orb]. rewrite !default_Some.
    rewrite (proj2 (decode_key _ _) Hb), bind_ok, (proj2 (decode_key _ _) Hi), bind_ok, (proj2 (whisper_reads _ _) Hm), bind_ok.
    destruct m. cbn in *. subst. done.
Qed.

Lemma shift5 id : N.shiftr id 5 = (id / 32)%N.
Proof. by rewrite N.shiftr_div_pow2. Qed.
Lemma land31 id : N.land id 31 = (id mod 32)%N.
Proof. change 31%N with (N.ones 5). by rewrite N.land_ones. Qed.

Lemma exchange_reads bs m : kx_msg_parse bs = Ok m <-> reads_exchange bs m.
Proof.
  destruct bs as [|v r].
  { split; [done|]. by intros (v & body & fs & id & base & ratchet & identity & ? & _). }
  unfold kx_msg_parse. rewrite rethrow_ok. unfold kx_parse_body. rewrite split2_frame. cbv beta iota zeta.
  rewrite !high_claimed, low_spec. unfold CURRENT_VERSION. split.
  - destruct (N.ltb_spec (claimed_version v) 3); [done|]. destruct (N.ltb_spec 3 (claimed_version v)); [done|].
    intros (w & Hw & H')%bind_ok_inv. unfold kx_parse, kx_merge in Hw. apply parse_bind in Hw as (fs & Hfs & Hw).
    rewrite kx_fold in Hw. apply Ok_inj in Hw as ->. cbn [kx_id kx_baseKey kx_ratchetKey kx_identityKey kx_baseKeySignature] in H'.
    destruct (the_number 1 fs) as [id|] eqn:E1; [|done]. destruct (the_bytes 2 fs) as [base|] eqn:E2; [|done].
    destruct (the_bytes 3 fs) as [ratchet|] eqn:E3; [|done]. destruct (the_bytes 4 fs) as [ident|] eqn:E4; [|done].
    destruct (the_bytes 5 fs) as [sig|] eqn:E5; [|done].
    apply bind_ok_inv in H' as (bk & Hb%decode_key & H'). apply bind_ok_inv in H' as (rk & Hr%decode_key & H').
    apply bind_ok_inv in H' as (ik & Hi%decode_key & H'). apply Ok_inj in H' as ->.
    exists v, r, fs, id, base, ratchet, ident.
    cbn [xSequence xFlags xBaseKey xRatchetKey xIdentityKey xBaseKeySignature xVersion xSupportedVersion xSerialized].
    rewrite shift5, land31. assert (claimed_version v = 3)%N by lia. do 14 (split; [done|]). split; [done|]. done.
  - intros (v' & body & fs & id & base & ratchet & ident & [= <- <-] & Hv & Hw & E1 & Hs & Hf & E2 & Hb & E3 & Hr & E4 & Hi & E5 & Hver & Hsup & Hser).
    rewrite Hv. cbn [N.ltb N.compare]. unfold kx_parse, kx_merge. rewrite (proj2 (parse_wire _ _) Hw), bind_ok, kx_fold, bind_ok.
    cbn [kx_id kx_baseKey kx_ratchetKey kx_identityKey kx_baseKeySignature]. rewrite E1, E2, E3, E4, E5.
    rewrite (proj2 (decode_key _ _) Hb), bind_ok, (proj2 (decode_key _ _) Hr), bind_ok, (proj2 (decode_key _ _) Hi), bind_ok.
    rewrite shift5, land31. destruct m. cbn in *. subst. done.
Qed.

Lemma sender_key_body v body r m :
  ((if (claimed_version v <? 3)%N then Err ELegacyMessage
    else if (CURRENT_VERSION <? claimed_version v)%N then Err EInvalidMessage
    else m ← sk_parse body;
         Ok (SenderKeyMessage (claimed_version v) (default 0%N (sk_id m)) (default 0%N (sk_iteration m)) (default [] (sk_ciphertext m)) r)) = Ok m) <->
  claimed_version v = 3%N /\ exists fs, wire body fs /\
    gKeyId m = default 0%N (the_number 1 fs) /\ gIteration m = default 0%N (the_number 2 fs) /\
    gCiphertext m = default [] (the_bytes 3 fs) /\ gVersion m = 3%N /\ gSerialized m = r.
Proof.
  unfold CURRENT_VERSION. split.
  - destruct (N.ltb_spec (claimed_version v) 3); [done|]. destruct (N.ltb_spec 3 (claimed_version v)); [done|].
    intros (w & Hw & H')%bind_ok_inv. unfold sk_parse, sk_merge in Hw. apply parse_bind in Hw as (fs & Hfs & Hw).
    rewrite sk_fold in Hw. apply Ok_inj in Hw as ->. apply Ok_inj in H' as ->. cbn [sk_id sk_iteration sk_ciphertext gKeyId gIteration gCiphertext gVersion gSerialized].
    assert (claimed_version v = 3)%N as Hv by lia. split; [done|]. exists fs. split; [done|]. done.
  - intros (Hv & fs & Hw & H1 & H2 & H3 & H4 & H5). rewrite Hv. cbn [N.ltb N.compare].
    unfold sk_parse, sk_merge. rewrite (proj2 (parse_wire _ _) Hw), bind_ok, sk_fold, bind_ok. cbn [sk_id sk_iteration sk_ciphertext].
    destruct m. cbn in *. subst. done.
Qed.
Lemma sender_key_reads bs m : 65 <= length bs -> sk_msg_parse bs = Ok m <-> reads_sender_key bs m.
Proof.
  intros Hl. destruct bs as [|v r]; [cbn in Hl; lia|].
  unfold sk_msg_parse. rewrite rethrow_ok. unfold sk_parse_body. change SIGNATURE_LENGTH with (Z.of_nat 64).
  destruct (cut r 64) as (body & sig & -> & Hsig); [cbn in Hl; lia|]. rewrite split3_long by done. cbv beta iota zeta. rewrite !high_claimed, sender_key_body. split.
  - intros (Hv & fs & H). exists v, body, sig, fs. tauto.
  - intros (v' & body' & sig' & fs & [= <- E] & Hm' & Hv & H). apply app_inj_2 in E as [<- <-]; [|lia]. split; [done|]. by exists fs.
Qed.
(** What is accepted although there is no room for a signature. *)
Lemma sender_key_short v r : length r <= 31 -> claimed_version v = 3%N -> sk_msg_parse (v :: r) = Ok (SenderKeyMessage 3 0 0 [] (v :: r)).
Proof.
  intros Hr Hv. unfold sk_msg_parse. rewrite rethrow_ok. unfold sk_parse_body. change SIGNATURE_LENGTH with (Z.of_nat 64).
  pose proof (split3_short v r 64 ltac:(lia)) as Hs. destruct (bu_split3 _ _ _ _) as [[p0 message] p2]. destruct Hs as (-> & Hl & Hl0). cbv beta iota zeta.
  rewrite !high_claimed, sender_key_body. split; [done|]. exists []. destruct message; [|cbn in Hl; lia]. split; [constructor|]. done.
Qed.
Lemma sender_key_room bs m : reads_sender_key bs m -> 65 <= length bs.
Proof. intros (v & body & sig & fs & -> & Hs & _). cbn. rewrite app_length. lia. Qed.

Lemma distribution_reads bs m : skd_msg_parse bs = Ok m <-> reads_distribution bs m.
Proof.
  destruct bs as [|v r].
  { split; [done|]. by intros (v & body & fs & key & ? & _). }
  unfold skd_msg_parse. rewrite rethrow_ok. unfold skd_parse_body. rewrite split2_frame. cbv beta iota zeta.
  rewrite !high_claimed. unfold CURRENT_VERSION. split.
  - destruct (N.ltb_spec (claimed_version v) 3); [done|]. destruct (N.ltb_spec 3 (claimed_version v)); [done|].
    intros (w & Hw & H')%bind_ok_inv. unfold skd_parse, skd_merge in Hw. apply parse_bind in Hw as (fs & Hfs & Hw).
    rewrite skd_fold in Hw. apply Ok_inj in Hw as ->. cbn [skd_id skd_iteration skd_chainKey skd_signingKey] in H'.
    apply bind_ok_inv in H' as (key & Hk%decode_key & H'). apply Ok_inj in H' as ->.
    destruct (the_bytes 4 fs) as [b|] eqn:E4; [|by apply key_in_nonnil in Hk].
    exists v, r, fs, b. cbn [dId dIteration dChainKey dSignatureKey dSerialized]. assert (claimed_version v = 3)%N by lia. do 8 (split; [done|]). done.
  - intros (v' & body & fs & key & [= <- <-] & Hv & Hw & E4 & Hk & Hid & Hit & Hck & Hser).
    rewrite Hv. cbn [N.ltb N.compare]. unfold skd_parse, skd_merge. rewrite (proj2 (parse_wire _ _) Hw), bind_ok, skd_fold, bind_ok.
    cbn [skd_id skd_iteration skd_chainKey skd_signingKey]. rewrite E4. rewrite !default_Some.
    rewrite (proj2 (decode_key _ _) Hk), bind_ok. destruct m. cbn in *. subst. done.
Qed.
Lemma short_accepted v r : length r <= 31 -> claimed_version v = 3%N ->
  exists m, sk_msg_parse (v :: r) = Ok m /\ gKeyId m = 0%N /\ gIteration m = 0%N /\ gCiphertext m = [] /\ ~ reads_sender_key (v :: r) m.
Proof.
  intros Hr Hv. exists (SenderKeyMessage 3 0 0 [] (v :: r)). split; [by apply sender_key_short|]. do 3 (split; [done|]).
  intros H%sender_key_room. cbn in H. lia.
Qed.
