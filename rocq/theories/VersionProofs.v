(** Every session is of version 3, so only version 3 messages are sent and decrypted. *)
From Verif Require Import PyBase Wire Protos ProtoFacts Crypto Ecc Kdf Messages State Prog Ratchet Builder Cipher Groups Helper.
From Verif Require Import ProgFacts StateFacts UtilFacts HelperFacts MsgFacts CipherFacts DecryptFacts SpecSession SessionProofs SpecApi InvFacts Sched.

Section version.
Context (C : crypto).

Lemma version_states w r d rec s :
  reachable C w -> session_at w r d = Ok rec -> s ∈ states rec ->
  ss_version s = Some 3%N \/ ss_version s = None /\ ss_senderChain s = None.
Proof.
  intros Hw Hrec Hs. apply (reachable_inv C) in Hw. destruct (Hw _ _ _ Hrec) as [(_ & _ & Hi) _].
  rewrite Forall_forall in Hi. by destruct (Hi s Hs) as (_ & _ & _ & Hv).
Qed.

Lemma getVersion_3 s : version_inv s -> st_hasSenderChain s = true -> st_getSessionVersion s = 3%N.
Proof.
  unfold st_getSessionVersion, st_hasSenderChain. intros [->|[_ ->]]; done.
Qed.

Notation rspec p Q := (pspec loaded_inv record_inv p Q).

Lemma decrypted_3 rec m pt rec' : record_inv rec -> decrypted C rec m pt rec' -> wVersion m = 3%N.
Proof.
  intros (_ & _ & Hi) (j & s & ek & s' & Hj & (Hsc & Hv & _)%decryptPure_ok_inv & _).
  rewrite Hv. apply getVersion_3; [|done]. by destruct (Forall_lookup_1 _ _ _ _ Hi Hj) as (_ & _ & _ & ?).
Qed.

Lemma vspec_decryptMsg r d m : rspec (decryptMsg C r d m) (fun _ => wVersion m = 3%N).
Proof.
  eapply pspec_bind; [by apply (pspec_do loaded_inv record_inv (CContainsSession r d))|]. intros [] _; [|done].
  eapply pspec_bind; [apply pspec_load|]. intros rec Hrec.
  eapply pspec_bind; [apply pspec_decryptWithSessionRecord|]. intros x Hx.
  eapply pspec_bind; [apply pspec_store; exact (decrypted_inv _ _ _ _ _ (proj1 Hrec) Hx)|]. intros _ _.
  exact (decrypted_3 _ _ _ _ (proj1 Hrec) Hx).
Qed.

Lemma vspec_decryptPkmsg r d m : rspec (decryptPkmsg C r d m) (fun _ => wVersion (pMessage m) = 3%N).
Proof.
  eapply pspec_bind; [apply pspec_load|]. intros rec Hrec.
  eapply pspec_bind; [by apply spec_builder_process|]. intros x Hx.
  eapply pspec_bind; [apply pspec_decryptWithSessionRecord|]. intros y Hy.
  eapply pspec_bind; [apply pspec_store; exact (decrypted_inv _ _ _ _ _ Hx Hy)|]. intros _ _.
  pose proof (decrypted_3 _ _ _ _ Hx Hy). destruct (x.2) as [i|]; [|done].
  eapply pspec_bind; [by apply (pspec_do loaded_inv record_inv (CRemovePreKey i))|done].
Qed.

(** A ciphertext as it is sent: the version fields and the version byte. *)
Definition ct_is_3 (c : ciphertextMessage) : Prop :=
  (exists rest, ct_serialize c = x33 :: rest) /\
  match c with CTWhisper m => wVersion m = 3%N | CTPreKey p => pVersion p = 3%N /\ wVersion (pMessage p) = 3%N end.

Lemma whisper_create_3 mac key n p body a b m :
  whisper_create C 3 mac key n p body a b = Ok m ->
  wVersion m = 3%N /\ exists rest, wSerialized m = x33 :: rest.
Proof.
  intros H. pose proof H as (c & [-> Hc]%set_u32_inv & H')%bind_ok_inv.
  apply bind_ok_inv in H' as (pc & [-> Hpc]%set_u32_inv & _).
  rewrite whisper_create_ok in H by done. injection H as <-. split; [done|]. by eexists.
Qed.

Lemma encryptWithState_3 s pt x : version_inv s -> encryptWithState C s pt = Ok x -> ct_is_3 x.1.
Proof.
  intros Hv H. pose proof H as Hsc%encryptWithState_chain. pose proof (getVersion_3 _ Hv Hsc) as E.
  unfold encryptWithState in H. rewrite E in H.
  do 5 (apply bind_ok_inv in H as (? & _ & H)).
  apply bind_ok_inv in H as (m & [Hm Hb]%whisper_create_3 & H).
  apply bind_ok_inv in H as (ct & Hct & H). apply bind_ok_inv in H as (s' & _ & [= <-]). cbn [fst].
  destruct (st_hasUnacknowledgedPreKeyMessage s); [|injection Hct as <-; done].
  apply bind_ok_inv in Hct as ([[i j] k] & _ & Hct). do 2 (apply bind_ok_inv in Hct as (? & _ & Hct)).
  apply bind_ok_inv in Hct as (p & Hp & [= <-]).
  pose proof Hp as (H1 & H2 & H3)%prekey_create_inv.
  rewrite prekey_create_ok in Hp by done. injection Hp as <-. split; [by eexists|]. done.
Qed.

Lemma vspec_encrypt r d pt : rspec (encrypt C r d pt) ct_is_3.
Proof.
  pose proof (spec_encrypt C r d pt) as H. unfold encrypt in *.
  assert (rspec (encrypt C r d pt) ct_is_3) as ?; [|done]. unfold encrypt.
  eapply pspec_bind; [apply pspec_load|]. intros rec Hrec.
  destruct (encryptWithState C (sr_state rec) pt) as [x|e] eqn:E; [|done].
  cbn [lift]. destruct H as [_ H]. specialize (H (Ok rec) Hrec). cbn in H. rewrite E in H. cbn in H.
  split; [by apply H|]. intros [[]|e] _; [|done]. cbn.
  eapply encryptWithState_3; [|done]. destruct Hrec as [(_ & _ & [Hi _]%Forall_cons) _]. by apply Hi.
Qed.

Lemma version_encrypt w r d pt ct w' :
  reachable C w -> run (encrypt C r d pt) w = (Ok ct, w') ->
  (exists rest, ct_serialize ct = x33 :: rest) /\
  match ct with CTWhisper m => wVersion m = 3%N | CTPreKey p => pVersion p = 3%N /\ wVersion (pMessage p) = 3%N end.
Proof.
  intros Hw H. apply (reachable_inv C) in Hw.
  apply (proj2 (run_keeps _ _ _ (vspec_encrypt r d pt) Hw)). by rewrite H.
Qed.

Lemma version_decryptMsg w r d m pt w' :
  reachable C w -> run (decryptMsg C r d m) w = (Ok pt, w') -> wVersion m = 3%N.
Proof.
  intros Hw H. apply (reachable_inv C) in Hw.
  apply (proj2 (run_keeps _ _ _ (vspec_decryptMsg r d m) Hw) pt). by rewrite H.
Qed.
Lemma version_decryptPkmsg w r d m pt w' :
  reachable C w -> run (decryptPkmsg C r d m) w = (Ok pt, w') -> wVersion (pMessage m) = 3%N.
Proof.
  intros Hw H. apply (reachable_inv C) in Hw.
  apply (proj2 (run_keeps _ _ _ (vspec_decryptPkmsg r d m) Hw) pt). by rewrite H.
Qed.

(** As the bytes on the wire. *)
Lemma whisper_parse_version bs m :
  whisper_parse bs = Ok m -> exists b rest, bs = b :: rest /\ wVersion m = (b2n b / 16)%N.
Proof.
  unfold whisper_parse. destruct bs as [|b bs]; [done|].
  unfold res_rethrow. destruct (whisper_parse_body (b :: bs)) as [x|e] eqn:E; [|by case_match].
  intros [= ->]. exists b, bs. split; [done|]. revert E. unfold whisper_parse_body.
  destruct (bu_split3 (b :: bs) _ _ _) as [[p0 message] t] eqn:E.
  assert (p0 = [b]) as ->.
  { unfold bu_split3 in E. injection E as E _ _. rewrite py_slice_prefix in E by lia. rewrite <- E. done. }
  case_match; [done|]. case_match; [done|].
  intros (w & Hw & H')%bind_ok_inv. case_match; [done|].
  apply bind_ok_inv in H' as (k & _ & [= <-]). cbn [wVersion]. apply high_spec, b2n_lt.
Qed.

Lemma version_received w r d t bs pt w' :
  reachable C w -> run (receive C r d (t, bs)) w = (Ok pt, w') ->
  exists b rest, bs = b :: rest /\ (b2n b / 16 = 3)%N.
Proof.
  intros Hw H. unfold receive in H. cbn [fst snd] in H. destruct t.
  - destruct (prekey_parse bs) as [m|e] eqn:E; [|done]. clear H.
    destruct bs as [|b bs]; [done|]. exists b, bs. split; [done|].
    destruct (N.le_gt_cases (b2n b / 16) 2) as [L|L].
    { by rewrite prekey_parse_version_old in E. }
    destruct (N.le_gt_cases 4 (b2n b / 16)) as [L'|L'].
    { by rewrite prekey_parse_version_new in E. }
    lia.
  - destruct (whisper_parse bs) as [m|e] eqn:E; [|done]. change (run (decryptMsg C r d m) w = (Ok pt, w')) in H.
    apply version_decryptMsg in H; [|done]. apply whisper_parse_version in E as (b & rest & -> & Hv).
    exists b, rest. split; [done|]. congruence.
Qed.
End version.
