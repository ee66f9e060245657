(** The protobuf wire format: generic fields, encoding, decoding, round trip.

    Models what the generated modules protocol/whisperprotos_pb2.py and
    state/storageprotos_pb2.py do through the protobuf runtime
    (SerializeToString / ParseFromString): the sources of record are
    protobuf/WhisperTextProtocol.proto and protobuf/LocalStorageProtocol.proto. *)
From Verif Require Import PyBase.

(** A decoded field value by wire type: varint(0), 64-bit(1), length-delimited(2),
    32-bit(5); a group (3/4) is skipped as a whole. *)
Inductive wval := WVar (n : N) | W64 (n : N) | WLen (b : bytes) | W32 (n : N) | WGroup.

(** Field number and value. *)
Notation wfield := (N * wval)%type.

(** Base-128 varint, least significant group first (wire format of every integer in
    protobuf/*.proto). [fuel] bounds the number of groups. *)
Fixpoint varint_enc_f (fuel : nat) (n : N) : bytes :=
  match fuel with
  | O => [n2b n]
  | S f => if (n <? 128)%N then [n2b n]
           else n2b (n mod 128 + 128) :: varint_enc_f f (n / 128)
  end.

(** Varint with as many groups as needed. *)
Definition varint_enc (n : N) : bytes := varint_enc_f (N.size_nat n) n.

(** Varint decoder: value, number of bytes, whether the last byte was zero, rest. *)
Fixpoint varint_dec (bs : bytes) : option (N * nat * bool * bytes) :=
  match bs with
  | [] => None
  | b :: r =>
      if (b2n b <? 128)%N then Some (b2n b, 1, (b2n b =? 0)%N, r)
      else match varint_dec r with
           | Some (v, c, z, r') => Some (b2n b - 128 + 128 * v, S c, z, r')%N
           | None => None
           end
  end.

(** 8-byte little-endian integers (fixed64 timestamp, LocalStorageProtocol.proto). *)
Fixpoint le_enc (k : nat) (n : N) : bytes :=
  match k with O => [] | S k => n2b (n mod 256) :: le_enc k (n / 256) end.
Fixpoint le_dec (bs : bytes) : N :=
  match bs with [] => 0 | b :: r => b2n b + 256 * le_dec r end%N.

(** Wire type of a value. *)
Definition wtype (v : wval) : N :=
  match v with WVar _ => 0 | W64 _ => 1 | WLen _ => 2 | W32 _ => 5 | WGroup => 3 end%N.

(** Encoding of one field as the protobuf runtime writes it. *)
Definition enc_field (f : wfield) : bytes :=
  varint_enc (f.1 * 8 + wtype f.2) ++
  match f.2 with
  | WVar n => varint_enc n
  | W64 n => le_enc 8 n
  | WLen b => varint_enc (N.of_nat (length b)) ++ b
  | W32 n => le_enc 4 n
  | WGroup => varint_enc (f.1 * 8 + 4)
  end.

Definition enc_fields (fs : list wfield) : bytes := concat (map enc_field fs).

(** Tag: at most five bytes and 32 bits, field number not 0. *)
Definition dec_tag (bs : bytes) : option (N * N * bytes) :=
  match varint_dec bs with
  | Some (v, c, _, r) =>
      if (c <=? 5)%nat && (v <? 2 ^ 32)%N && negb (v / 8 =? 0)%N
      then Some (v / 8, v mod 8, r)%N else None
  | None => None
  end.

(** Value varint: at most ten bytes, truncated to 64 bits. *)
Definition dec_value (bs : bytes) : option (N * bytes) :=
  match varint_dec bs with
  | Some (v, c, _, r) => if (c <=? 10)%nat then Some (v mod 2 ^ 64, r)%N else None
  | None => None
  end.

(** Length prefix followed by that many bytes.  An overlong length varint (more than
    ten bytes, padded with a zero group) is refused; sizes are otherwise not bounded
    (the runtimes refuse more than 2 GiB). *)
Definition dec_len (bs : bytes) : option (bytes * bytes) :=
  match varint_dec bs with
  | Some (v, c, z, r) =>
      if (10 <? c)%nat && z then None
      else if (v <=? N.of_nat (length r))%N
      then Some (take (N.to_nat v) r, drop (N.to_nat v) r) else None
  | None => None
  end.

(** A fixed-size payload of [k] bytes. *)
Definition dec_fixed (k : nat) (bs : bytes) : option (N * bytes) :=
  if (k <=? length bs)%nat then Some (le_dec (take k bs), drop k bs) else None.

(** All fields up to the end of input, or up to the end of group [grp].  Groups are
    skipped; an end-group tag without its group, wire types 6 and 7, and truncated
    input are errors. *)
Fixpoint dec_fields (fuel : nat) (grp : option N) (bs : bytes) : option (list wfield * bytes) :=
  match fuel with
  | O => None
  | S f =>
      match bs with
      | [] => match grp with None => Some ([], []) | Some _ => None end
      | _ =>
          match dec_tag bs with
          | None => None
          | Some (num, wt, r) =>
              match wt with
              | 0%N => match dec_value r with
                     | Some (v, r') => match dec_fields f grp r' with
                                       | Some (fs, e) => Some ((num, WVar v) :: fs, e)
                                       | None => None end
                     | None => None end
              | 1%N => match dec_fixed 8 r with
                     | Some (v, r') => match dec_fields f grp r' with
                                       | Some (fs, e) => Some ((num, W64 v) :: fs, e)
                                       | None => None end
                     | None => None end
              | 2%N => match dec_len r with
                     | Some (v, r') => match dec_fields f grp r' with
                                       | Some (fs, e) => Some ((num, WLen v) :: fs, e)
                                       | None => None end
                     | None => None end
              | 3%N => match dec_fields f (Some num) r with
                     | Some (_, r') => match dec_fields f grp r' with
                                       | Some (fs, e) => Some ((num, WGroup) :: fs, e)
                                       | None => None end
                     | None => None end
              | 4%N => match grp with
                     | Some g => if (g =? num)%N then Some ([], r) else None
                     | None => None end
              | 5%N => match dec_fixed 4 r with
                     | Some (v, r') => match dec_fields f grp r' with
                                       | Some (fs, e) => Some ((num, W32 v) :: fs, e)
                                       | None => None end
                     | None => None end
              | _ => None
              end
          end
      end
  end.

(** ParseFromString at the level of raw fields; failure is protobuf's DecodeError. *)
Definition parse_raw (bs : bytes) : res (list wfield) :=
  match dec_fields (S (length bs)) None bs with
  | Some (fs, _) => Ok fs
  | None => Err EDecodeError
  end.

(** ** Round trip *)

Lemma varint_enc_f_nonnil fuel n : varint_enc_f fuel n <> [].
Proof. destruct fuel; simpl; [done|]. by case_match. Qed.

(** Decoding an encoded varint, with the facts the length checks need. *)
Lemma varint_dec_enc_f fuel n rest :
  (n < 128 ^ N.of_nat (S fuel))%N ->
  exists c z, varint_dec (varint_enc_f fuel n ++ rest) = Some (n, c, z, rest)
    /\ c = length (varint_enc_f fuel n) /\ (z = true -> n = 0%N /\ c = 1).
Proof.
  revert n. induction fuel as [|f IH]; intros n Hn.
  - change (128 ^ N.of_nat 1)%N with 128%N in Hn. cbn [varint_enc_f app varint_dec].
    rewrite b2n_n2b_small by lia. rewrite (proj2 (N.ltb_lt n 128)) by lia. eexists _, _. split; [done|].
    split; [done|]. intros Hz. apply N.eqb_eq in Hz. lia.
  - cbn [varint_enc_f]. destruct (n <? 128)%N eqn:E.
    + apply N.ltb_lt in E. cbn [app varint_dec]. rewrite b2n_n2b_small by lia.
      rewrite (proj2 (N.ltb_lt n 128)) by lia. eexists _, _. split; [done|].
      split; [done|]. intros Hz. apply N.eqb_eq in Hz. lia.
    + apply N.ltb_ge in E. cbn [app varint_dec].
      assert (Hm : (n mod 128 < 128)%N) by (apply N.mod_lt; lia).
      rewrite b2n_n2b_small by lia.
      rewrite (proj2 (N.ltb_ge (n mod 128 + 128) 128)) by apply N.le_add_l.
      destruct (IH (n / 128)%N) as (c & z & -> & Hc & Hz).
      { apply N.div_lt_upper_bound; [lia|].
        replace (N.of_nat (S (S f))) with (N.succ (N.of_nat (S f))) in Hn by lia.
        rewrite N.pow_succ_r' in Hn. lia. }
      eexists _, _. split.
      * pose proof (N.div_mod n 128 ltac:(lia)) as Hdm.
        rewrite N.add_sub. by rewrite N.add_comm, <- Hdm.
      * split; [by rewrite Hc|]. intros ->. destruct Hz as [Hz _]; [done|].
        apply N.div_small_iff in Hz; lia.
Qed.

Lemma size_nat_pow2 n : (n < 2 ^ N.of_nat (N.size_nat n))%N.
Proof.
  destruct n as [|p]; [done|]. cbn [N.size_nat].
  induction p as [p IH|p IH|]; cbn [Pos.size_nat].
  - replace (N.of_nat (S (Pos.size_nat p))) with (N.succ (N.of_nat (Pos.size_nat p))) by lia.
    rewrite N.pow_succ_r'. change (N.pos p~1) with (2 * N.pos p + 1)%N. lia.
  - replace (N.of_nat (S (Pos.size_nat p))) with (N.succ (N.of_nat (Pos.size_nat p))) by lia.
    rewrite N.pow_succ_r'. change (N.pos p~0) with (2 * N.pos p)%N. lia.
  - done.
Qed.

Lemma varint_dec_enc n rest :
  exists c z, varint_dec (varint_enc n ++ rest) = Some (n, c, z, rest)
    /\ c = length (varint_enc n) /\ (z = true -> n = 0%N /\ c = 1).
Proof.
  apply varint_dec_enc_f.
  eapply N.lt_le_trans; [apply size_nat_pow2|].
  etransitivity; [apply (N.pow_le_mono_l 2 128); lia|].
  apply N.pow_le_mono_r; lia.
Qed.

Lemma varint_enc_f_length k fuel n :
  (0 < k)%nat -> (n < 128 ^ N.of_nat k)%N -> (length (varint_enc_f fuel n) <= k)%nat.
Proof.
  revert k n. induction fuel as [|f IH]; intros k n Hk Hn; simpl; [lia|].
  case_match; simpl; [lia|].
  destruct k as [|[|k]]; [lia| |].
  - apply N.ltb_ge in H. change (128 ^ N.of_nat 1)%N with 128%N in Hn. lia.
  - apply le_n_S. apply IH; [lia|]. apply N.div_lt_upper_bound; [lia|].
    replace (N.of_nat (S (S k))) with (N.succ (N.of_nat (S k))) in Hn by lia.
    rewrite N.pow_succ_r' in Hn. lia.
Qed.

(** A field the encoder can write and the decoder reads back unchanged. *)
Definition wf_field (f : wfield) : Prop :=
  (0 < f.1 < 2 ^ 29)%N /\
  match f.2 with
  | WVar n => (n < 2 ^ 64)%N
  | W64 n => (n < 2 ^ 64)%N
  | WLen _ => True
  | W32 n => (n < 2 ^ 32)%N
  | WGroup => False
  end.

Lemma le_dec_enc k n rest :
  (n < 256 ^ N.of_nat k)%N ->
  length (le_enc k n) = k /\ le_dec (le_enc k n) = n /\
  take k (le_enc k n ++ rest) = le_enc k n /\ drop k (le_enc k n ++ rest) = rest.
Proof.
  revert n. induction k as [|k IH]; intros n Hn.
  - simpl in *. split; [done|]. split; [lia|]. by rewrite drop_0.
  - destruct (IH (n / 256)%N) as (H1 & H2 & H3 & H4).
    { apply N.div_lt_upper_bound; [lia|].
      replace (N.of_nat (S k)) with (N.succ (N.of_nat k)) in Hn by lia.
      rewrite N.pow_succ_r' in Hn. lia. }
    cbn [le_enc le_dec length app take drop]. rewrite H1, H2, H3, H4.
    split; [done|]. split; [|done].
    rewrite b2n_n2b_small by (apply N.mod_lt; lia).
    rewrite (N.div_mod n 256) at 3 by lia. lia.
Qed.

Lemma dec_fixed_enc k n rest :
  (n < 256 ^ N.of_nat k)%N -> dec_fixed k (le_enc k n ++ rest) = Some (n, rest).
Proof.
  intros Hn. destruct (le_dec_enc k n rest Hn) as (H1 & H2 & H3 & H4).
  unfold dec_fixed. rewrite app_length, H1.
  rewrite (proj2 (Nat.leb_le k (k + length rest))) by lia. by rewrite H3, H4, H2.
Qed.

Lemma dec_tag_enc num wt rest :
  (0 < num < 2 ^ 29)%N -> (wt < 8)%N ->
  dec_tag (varint_enc (num * 8 + wt) ++ rest) = Some (num, wt, rest).
Proof.
  intros Hnum Hwt. unfold dec_tag.
  destruct (varint_dec_enc (num * 8 + wt) rest) as (c & z & -> & Hc & _).
  assert (c <= 5)%nat.
  { rewrite Hc. apply varint_enc_f_length; [lia|]. change (128 ^ N.of_nat 5)%N with (2 ^ 35)%N. lia. }
  rewrite (proj2 (Nat.leb_le c 5)) by lia.
  rewrite (proj2 (N.ltb_lt (num * 8 + wt) (2 ^ 32))) by lia.
  assert (Hd : ((num * 8 + wt) / 8 = num)%N).
  { rewrite N.add_comm, N.div_add by lia. rewrite N.div_small by lia. lia. }
  assert (Hm : ((num * 8 + wt) mod 8 = wt)%N).
  { rewrite N.add_comm, N.mod_add by lia. apply N.mod_small. lia. }
  rewrite Hd, Hm. rewrite (proj2 (N.eqb_neq num 0)) by lia. done.
Qed.

Lemma dec_value_enc n rest :
  (n < 2 ^ 64)%N -> dec_value (varint_enc n ++ rest) = Some (n, rest).
Proof.
  intros Hn. unfold dec_value.
  destruct (varint_dec_enc n rest) as (c & z & -> & Hc & _).
  assert (c <= 10)%nat.
  { rewrite Hc. apply varint_enc_f_length; [lia|]. change (128 ^ N.of_nat 10)%N with (2 ^ 70)%N. lia. }
  rewrite (proj2 (Nat.leb_le c 10)) by lia. by rewrite N.mod_small.
Qed.

Lemma dec_len_enc b rest :
  dec_len ((varint_enc (N.of_nat (length b)) ++ b) ++ rest) = Some (b, rest).
Proof.
  unfold dec_len. rewrite <- app_assoc.
  destruct (varint_dec_enc (N.of_nat (length b)) (b ++ rest)) as (c & z & -> & Hc & Hz).
  assert (((10 <? c)%nat && z) = false) as ->.
  { destruct z; [|apply andb_false_r]. destruct Hz as [_ ->]; done. }
  rewrite app_length, (proj2 (N.leb_le _ _)) by lia.
  rewrite Nat2N.id. by rewrite take_app, drop_app.
Qed.

Lemma enc_field_nonnil f : enc_field f <> [].
Proof.
  unfold enc_field. intros H. apply app_eq_nil in H as [H _].
  by apply varint_enc_f_nonnil in H.
Qed.

Lemma dec_fields_enc fs fuel :
  Forall wf_field fs -> (length fs < fuel)%nat ->
  dec_fields fuel None (enc_fields fs) = Some (fs, []).
Proof.
  revert fuel. induction fs as [|f fs IH]; intros fuel Hwf Hfuel.
  - destruct fuel; [lia|done].
  - apply Forall_cons in Hwf as [Hf Hwf]. destruct fuel as [|fuel]; [lia|].
    unfold enc_fields in *. cbn [map concat dec_fields].
    destruct (enc_field f ++ concat (map enc_field fs)) as [|b l] eqn:E.
    { apply app_eq_nil in E as [E _]. by apply enc_field_nonnil in E. }
    rewrite <- E. clear E b l.
    destruct f as [num v]. destruct Hf as [Hnum Hv]. unfold enc_field.
    cbn [fst snd] in *. rewrite <- app_assoc.
    rewrite dec_tag_enc; [|done|by destruct v].
    simpl in Hfuel.
    destruct v as [n|n|b|n|]; cbn [wtype] in *; [..|done].
    + rewrite dec_value_enc by done. by rewrite IH by (done || lia).
    + rewrite dec_fixed_enc by exact Hv. by rewrite IH by (done || lia).
    + rewrite dec_len_enc. by rewrite IH by (done || lia).
    + rewrite dec_fixed_enc by exact Hv. by rewrite IH by (done || lia).
Qed.

Lemma enc_fields_length fs : (length fs <= length (enc_fields fs))%nat.
Proof.
  unfold enc_fields. induction fs as [|f fs IH]; simpl; [done|].
  rewrite app_length. pose proof (enc_field_nonnil f).
  destruct (enc_field f); simpl; [done|lia].
Qed.

(** Parsing what was serialised gives the fields back. *)
Lemma parse_raw_enc fs : Forall wf_field fs -> parse_raw (enc_fields fs) = Ok fs.
Proof.
  intros H. unfold parse_raw. rewrite dec_fields_enc; [done|done|].
  pose proof (enc_fields_length fs). lia.
Qed.

Lemma parse_raw_err bs e : parse_raw bs = Err e -> e = EDecodeError.
Proof. unfold parse_raw. destruct (dec_fields _ _ _) as [[? ?]|]; [done|]. by intros [= <-]. Qed.

Lemma enc_fields_app a b : enc_fields (a ++ b) = enc_fields a ++ enc_fields b.
Proof. unfold enc_fields. by rewrite map_app, concat_app. Qed.

Lemma enc_fields_nil_inv fs : enc_fields fs = [] -> fs = [].
Proof. destruct fs; [done|]. intros H. apply app_eq_nil in H as [H _]. by apply enc_field_nonnil in H. Qed.
