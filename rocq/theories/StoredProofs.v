(** Stored records are read as their schema says: C93. *)
From Verif Require Import PyBase Wire Protos ProtoFacts Ecc State StateFacts Prog MsgFacts SpecRead ReadProofs SpecStored.

Lemma last_of_snoc {A} (f : wval -> option A) k fs num v :
  last_of f k (fs ++ [(num, v)]) = if decide (num = k) then match f v with Some a => Some a | None => last_of f k fs end else last_of f k fs.
Proof.
  unfold last_of. rewrite omap_app. cbn [omap list_omap fst snd]. destruct (decide (num = k)); [|by rewrite app_nil_r].
  destruct (f v); [by rewrite last_snoc|by rewrite app_nil_r].
Qed.
Lemma occurrences_snoc k fs num v : occurrences k (fs ++ [(num, v)]) =
  match v with WLen b => if decide (num = k) then occurrences k fs ++ [b] else occurrences k fs | _ => occurrences k fs end.
Proof.
  unfold occurrences. rewrite omap_app. cbn [omap list_omap fst snd]. destruct v; cbn; rewrite ?app_nil_r; try done.
  destruct (decide (num = k)); [done|by rewrite app_nil_r].
Qed.
Lemma signed32_i32 n : i32 n = signed32 n.
Proof. unfold i32, signed32, u32. set (m := (n mod 2 ^ 32)%N). case_decide as E; destruct (N.ltb_spec m (2 ^ 31)); lia. Qed.
Lemma the_signed_snoc k fs num v : the_signed k (fs ++ [(num, v)]) =
  match v with WVar n => if decide (num = k) then Some (i32 n) else the_signed k fs | _ => the_signed k fs end.
Proof. unfold the_signed. rewrite last_of_snoc. destruct v; rewrite ?signed32_i32; by destruct (decide (num = k)). Qed.
Lemma the_flag_snoc k fs num v : the_flag k (fs ++ [(num, v)]) =
  match v with WVar n => if decide (num = k) then Some (negb (n =? 0)%N) else the_flag k fs | _ => the_flag k fs end.
Proof.
  unfold the_flag. rewrite last_of_snoc. destruct v as [n| | | |]; try (by destruct (decide (num = k))).
  replace (negb (n =? 0)%N) with (bool_decide (n <> 0%N)); [by destruct (decide (num = k))|].
  destruct (N.eqb_spec n 0); [by rewrite bool_decide_false by auto|by rewrite bool_decide_true].
Qed.
Lemma the_fixed_snoc k fs num v : the_fixed k (fs ++ [(num, v)]) =
  match v with W64 n => if decide (num = k) then Some n else the_fixed k fs | _ => the_fixed k fs end.
Proof. unfold the_fixed. rewrite last_of_snoc. destruct v; by destruct (decide (num = k)). Qed.

(** *** Records without messages in them *)

Ltac by_fields := intros fs; induction fs as [|[num v] fs IH] using rev_ind; [done|];
  rewrite fold_fields_app, IH; cbn [mbind res_bind fold_fields]; rewrite ?the_bytes_snoc, ?the_number_snoc, ?the_signed_snoc, ?the_fixed_snoc;
  destruct v; try (by destruct num as [|[[[[]|[]|]|[[]|[]|]|]|[[[]|[]|]|[[]|[]|]|]|]]).
Lemma ck_fold : forall fs, fold_fields ck_step ck_empty fs = Ok (CkS (the_number 1 fs) (the_bytes 2 fs)).
Proof. by_fields. Qed.
Lemma mk_fold : forall fs, fold_fields mk_step mk_empty fs = Ok (MkS (the_number 1 fs) (the_bytes 2 fs) (the_bytes 3 fs) (the_bytes 4 fs)).
Proof. by_fields. Qed.
Lemma px_fold : forall fs, fold_fields px_step px_empty fs =
  Ok (PxS (the_number 1 fs) (the_bytes 2 fs) (the_bytes 3 fs) (the_bytes 4 fs) (the_bytes 5 fs) (the_bytes 7 fs) (the_bytes 8 fs)).
Proof. by_fields. Qed.
Lemma pp_fold : forall fs, fold_fields pp_step pp_empty fs = Ok (PpS (the_number 1 fs) (the_bytes 2 fs) (the_signed 3 fs)).
Proof. by_fields. Qed.
Lemma pr_fold : forall fs, fold_fields pr_step pr_empty fs = Ok (PrS (the_number 1 fs) (the_bytes 2 fs) (the_bytes 3 fs)).
Proof. by_fields. Qed.
Lemma spr_fold : forall fs, fold_fields spr_step spr_empty fs =
  Ok (SprS (the_number 1 fs) (the_bytes 2 fs) (the_bytes 3 fs) (the_bytes 4 fs) (the_fixed 5 fs)).
Proof. by_fields. Qed.
Lemma ik_fold : forall fs, fold_fields ik_step ik_empty fs = Ok (IkS (the_bytes 1 fs) (the_bytes 2 fs)).
Proof. by_fields. Qed.
Lemma sck_fold : forall fs, fold_fields sck_step sck_empty fs = Ok (SckS (the_number 1 fs) (the_bytes 2 fs)).
Proof. by_fields. Qed.
Lemma smk_fold : forall fs, fold_fields smk_step smk_empty fs = Ok (SmkS (the_number 1 fs) (the_bytes 2 fs)).
Proof. by_fields. Qed.
Lemma ssk_fold : forall fs, fold_fields ssk_step ssk_empty fs = Ok (SskS (the_bytes 1 fs) (the_bytes 2 fs)).
Proof. by_fields. Qed.

(** The record is what the fields say. *)
Definition sound {A} (step : A -> wfield -> res A) (empty : A) (says : list wfield -> A -> Prop) : Prop :=
  forall fs a, fold_fields step empty fs = Ok a <-> says fs a.

Ltac plain says lem := intros fs []; rewrite lem; unfold says; split;
  [intros E; injection E; intros; subst; by split_and!|intros; destruct_and?; do 2 f_equal; symmetry; assumption].
Lemma ck_sound : sound ck_step ck_empty says_chain_key.
Proof. plain says_chain_key ck_fold. Qed.
Lemma mk_sound : sound mk_step mk_empty says_message_key.
Proof. plain says_message_key mk_fold. Qed.
Lemma px_sound : sound px_step px_empty says_pending_exchange.
Proof. plain says_pending_exchange px_fold. Qed.
Lemma pp_sound : sound pp_step pp_empty says_pending_prekey.
Proof. plain says_pending_prekey pp_fold. Qed.
Lemma pr_sound : sound pr_step pr_empty says_prekey.
Proof. plain says_prekey pr_fold. Qed.
Lemma spr_sound : sound spr_step spr_empty says_signed_prekey.
Proof. plain says_signed_prekey spr_fold. Qed.
Lemma ik_sound : sound ik_step ik_empty says_identity.
Proof. plain says_identity ik_fold. Qed.
Lemma sck_sound : sound sck_step sck_empty says_sender_chain.
Proof. plain says_sender_chain sck_fold. Qed.
Lemma smk_sound : sound smk_step smk_empty says_sender_message.
Proof. plain says_sender_message smk_fold. Qed.
Lemma ssk_sound : sound ssk_step ssk_empty says_sender_signing.
Proof. plain says_sender_signing ssk_fold. Qed.

Lemma sound_parse {A} (step : A -> wfield -> res A) empty says bs a : sound step empty says ->
  (parse_raw bs ≫= fold_fields step empty) = Ok a <-> exists fs, wire bs fs /\ says fs a.
Proof. intros H. rewrite parse_bind. by setoid_rewrite (H _ a). Qed.

(** *** Messages in messages *)

Lemma part_nil {A} (says : list wfield -> A -> Prop) k o : part says k [] o <-> o = None.
Proof.
  split; [|intros ->; exists []; split; [constructor|done]]. intros (gs & H & Ho). apply Forall2_nil_inv_l in H as ->. destruct o; [|done]. by destruct Ho.
Qed.
Lemma parts_nil {A} (says : list wfield -> A -> Prop) k l : parts says k [] l <-> l = [].
Proof.
  split; [|intros ->; exists []; split; constructor]. intros (gs & H & Hl). apply Forall2_nil_inv_l in H as ->. by apply Forall2_nil_inv_l in Hl.
Qed.
Lemma part_other {A} (says : list wfield -> A -> Prop) k fs num v o : num <> k -> part says k (fs ++ [(num, v)]) o <-> part says k fs o.
Proof. intros H. unfold part. rewrite occurrences_snoc. destruct v; rewrite ?decide_False by done; reflexivity. Qed.
Lemma parts_other {A} (says : list wfield -> A -> Prop) k fs num v l : num <> k -> parts says k (fs ++ [(num, v)]) l <-> parts says k fs l.
Proof. intros H. unfold parts. rewrite occurrences_snoc. destruct v; rewrite ?decide_False by done; reflexivity. Qed.
Definition no_len (v : wval) : Prop := match v with WLen _ => False | _ => True end.
Lemma part_no_len {A} (says : list wfield -> A -> Prop) k fs num v o : no_len v -> part says k (fs ++ [(num, v)]) o <-> part says k fs o.
Proof. intros H. unfold part. rewrite occurrences_snoc. destruct v; done || reflexivity. Qed.
Lemma parts_no_len {A} (says : list wfield -> A -> Prop) k fs num v l : no_len v -> parts says k (fs ++ [(num, v)]) l <-> parts says k fs l.
Proof. intros H. unfold parts. rewrite occurrences_snoc. destruct v; done || reflexivity. Qed.

Lemma part_snoc {A} (step : A -> wfield -> res A) empty says k fs b o' : sound step empty says ->
  part says k (fs ++ [(k, WLen b)]) o' <->
  exists o a, part says k fs o /\ (parse_raw b ≫= fold_fields step (default empty o)) = Ok a /\ o' = Some a.
Proof.
  intros Hs. unfold part. rewrite occurrences_snoc, decide_True by done. split.
  - intros (gs' & H & Ho). apply Forall2_app_inv_l in H as (gs & g' & Hgs & Hg & ->).
    apply Forall2_cons_inv_l in Hg as (g & ? & Hg & ->%Forall2_nil_inv_l & ->).
    destruct o' as [a|]; [|by destruct gs]. destruct Ho as [_ Ho]. rewrite concat_app in Ho. cbn in Ho. rewrite app_nil_r in Ho.
    apply Hs in Ho. rewrite fold_fields_app in Ho. apply bind_ok_inv in Ho as (m0 & Hm & Ha).
    apply parse_wire in Hg.
    destruct gs as [|g0 gs].
    + cbn in Hm. injection Hm as <-. exists None, a. rewrite Hg. split; [exists []; split; [done|done]|done].
    + exists (Some m0), a. rewrite Hg. split; [|done]. exists (g0 :: gs). split; [done|]. split; [done|]. by apply Hs.
  - intros (o & a & (gs & Hgs & Ho) & Ha & ->). apply parse_bind in Ha as (g & Hg & Ha).
    exists (gs ++ [g]). split; [by apply Forall2_app; [|constructor]|]. split; [by destruct gs|].
    rewrite concat_app. cbn. rewrite app_nil_r. apply Hs. rewrite fold_fields_app.
    destruct o as [m0|]; cbn [default] in Ha.
    + destruct Ho as [_ Ho%Hs]. rewrite Ho. done.
    + subst gs. cbn. done.
Qed.

Lemma parts_snoc {A} (step : A -> wfield -> res A) empty says k fs b l' : sound step empty says ->
  parts says k (fs ++ [(k, WLen b)]) l' <->
  exists l a, parts says k fs l /\ (parse_raw b ≫= fold_fields step empty) = Ok a /\ l' = l ++ [a].
Proof.
  intros Hs. unfold parts. rewrite occurrences_snoc, decide_True by done. split.
  - intros (gs' & H & Hl). apply Forall2_app_inv_l in H as (gs & g' & Hgs & Hg & ->).
    apply Forall2_cons_inv_l in Hg as (g & ? & Hg & ->%Forall2_nil_inv_l & ->).
    apply Forall2_app_inv_l in Hl as (l & la & Hl & Ha & ->).
    apply Forall2_cons_inv_l in Ha as (a & ? & Ha & ->%Forall2_nil_inv_l & ->).
    exists l, a. split; [by exists gs|]. split; [|done]. apply parse_bind. exists g. split; [done|]. by apply Hs.
  - intros (l & a & (gs & Hgs & Hl) & Ha & ->). apply parse_bind in Ha as (g & Hg & Ha%Hs).
    exists (gs ++ [g]). split; apply Forall2_app; try done; by constructor.
Qed.

(** *** Records with messages in them *)

(** One more field: what was read before, changed by the field. *)
Definition onestep {A} (step : A -> wfield -> res A) (says : list wfield -> A -> Prop) : Prop :=
  forall fs f a, (exists m, says fs m /\ step m f = Ok a) <-> says (fs ++ [f]) a.
Lemma sound_steps {A} (step : A -> wfield -> res A) empty says :
  (forall a, says [] a <-> a = empty) -> onestep step says -> sound step empty says.
Proof.
  intros H0 H1 fs. induction fs as [|f fs IH] using rev_ind; intros a.
  - rewrite H0. cbn. split; [by intros [= <-]|by intros ->].
  - rewrite fold_fields_app. rewrite <- (H1 fs f a). split.
    + intros (m & Hm%IH & H)%bind_ok_inv. exists m. split; [done|]. cbn in H. by destruct (step m f).
    + intros (m & Hm%IH & H). rewrite Hm. cbn. by rewrite H.
Qed.

Lemma same_step {A} (P : A -> Prop) a : (exists m, P m /\ Ok m = Ok a) <-> P a.
Proof. split; [by intros (m & Hm & [= <-])|by exists a]. Qed.
Lemma set_step {A} (P Q : A -> Prop) (g : A -> A) a :
  (forall m, P m -> Q (g m)) -> (Q a -> exists m, P m /\ g m = a) -> (exists m, P m /\ Ok (g m) = Ok a) <-> Q a.
Proof. intros H1 H2. split; [intros (m & Hm & [= <-]); auto|]. intros (m & Hm & <-)%H2. by exists m. Qed.
Lemma merge_step {A B} (P Q : A -> Prop) (f : A -> res B) (g : B -> A -> A) a :
  (forall m b, P m -> f m = Ok b -> Q (g b m)) -> (Q a -> exists m b, P m /\ f m = Ok b /\ g b m = a) ->
  (exists m, P m /\ (b ← f m; Ok (g b m)) = Ok a) <-> Q a.
Proof.
  intros H1 H2. split.
  - intros (m & Hm & H). apply bind_ok_inv in H as (b & Hb & [= <-]). auto.
  - intros (m & b & Hm & Hb & <-)%H2. exists m. split; [done|]. by rewrite Hb.
Qed.
Lemma ch_step_eq m num v : ch_step m (num, v) =
  match v with
  | WLen b => if decide (num = 1%N) then Ok (ch_set_ratchetKey (Some b) m) else
              if decide (num = 2%N) then Ok (ch_set_ratchetKeyPrivate (Some b) m) else
              if decide (num = 3%N) then c ← ck_merge (default ck_empty (ch_chainKey m)) b; Ok (ch_set_chainKey (Some c) m) else
              if decide (num = 4%N) then c ← mk_merge mk_empty b; Ok (ch_set_messageKeys (ch_messageKeys m ++ [c]) m) else Ok m
  | _ => Ok m
  end.
Proof. destruct v; try (by destruct num as [|[[[]|[]|]|[[]|[]|]|]]). Qed.

Ltac clear_snoc := rewrite ?the_bytes_snoc, ?the_number_snoc, ?the_flag_snoc, ?the_signed_snoc;
  repeat match goal with
  | |- context [part ?s ?k (?fs ++ [(?n, ?v)]) ?o] => first [rewrite (part_other s k fs n v o) by done | rewrite (part_no_len s k fs n v o) by done]
  | |- context [parts ?s ?k (?fs ++ [(?n, ?v)]) ?o] => first [rewrite (parts_other s k fs n v o) by done | rewrite (parts_no_len s k fs n v o) by done]
  end; cbv beta iota;
  repeat match goal with |- context [decide (?x = ?y)] => first [rewrite (decide_True (P := x = y)) by done | rewrite (decide_False (P := x = y)) by done] end.
Ltac same says := match goal with |- _ <-> _ ?fs' ?a => match fs' with ?fs ++ _ =>
  transitivity (says fs a); [apply (same_step (says fs))|unfold says; clear_snoc; reflexivity] end end.
Ltac value says old := match goal with |- _ <-> _ ?fs' ?a => match fs' with ?fs ++ _ =>
  apply (set_step (says fs) (says fs')); unfold says;
  [intros [] Hm; clear_snoc; destruct_and?; by split_and!
  |clear_snoc; intros Ha; exists old; split; [destruct_and?; by split_and!|destruct_and?; destruct a; cbn in *; by subst]] end end.
Ltac opt_part says Hs old := match goal with |- _ <-> _ ?fs' ?a => match fs' with ?fs ++ _ =>
  apply (merge_step (says fs) (says fs')); unfold says;
  [intros [] c Hm Hc; clear_snoc; destruct_and?; split_and!; try done; apply (part_snoc _ _ _ _ _ _ _ Hs); eauto 10
  |clear_snoc; intros Ha; destruct_and?; let o := fresh "o" in let c := fresh "c" in
   match goal with H : part _ _ (_ ++ _) _ |- _ => apply (part_snoc _ _ _ _ _ _ _ Hs) in H as (o & c & ? & ? & ?) end;
   exists (old o), c; split; [by split_and!|]; split; [done|]; destruct a; cbn in *; by subst] end end.
Ltac rep_part says Hs old := match goal with |- _ <-> _ ?fs' ?a => match fs' with ?fs ++ _ =>
  apply (merge_step (says fs) (says fs')); unfold says;
  [intros [] c Hm Hc; clear_snoc; destruct_and?; split_and!; try done; apply (parts_snoc _ _ _ _ _ _ _ Hs); eauto 10
  |clear_snoc; intros Ha; destruct_and?; let l := fresh "l" in let c := fresh "c" in
   match goal with H : parts _ _ (_ ++ _) _ |- _ => apply (parts_snoc _ _ _ _ _ _ _ Hs) in H as (l & c & ? & ? & ?) end;
   exists (old l), c; split; [by split_and!|]; split; [done|]; destruct a; cbn in *; by subst] end end.
Ltac field n k := destruct (decide (n = k)) as [->|?].

Lemma ch_sound : sound ch_step ch_empty says_chain.
Proof.
  apply sound_steps.
  - intros []. unfold says_chain. rewrite part_nil, parts_nil. cbn. split.
    + intros (-> & -> & -> & ->). done.
    + by intros [= -> -> -> ->].
  - intros fs [num v] a. setoid_rewrite ch_step_eq. destruct v as [n|n|b|n|]; [same says_chain..| |same says_chain|same says_chain].
    field num 1%N; [value says_chain (ch_set_ratchetKey (the_bytes 1 fs) a)|].
    field num 2%N; [value says_chain (ch_set_ratchetKeyPrivate (the_bytes 2 fs) a)|].
    field num 3%N; [opt_part says_chain ck_sound (fun o => ch_set_chainKey o a)|].
    field num 4%N; [rep_part says_chain mk_sound (fun l => ch_set_messageKeys l a)|].
    same says_chain.
Qed.

Lemma ss_step_eq m num v : ss_step m (num, v) =
  match v with
  | WVar v => if decide (num = 1%N) then Ok (ss_set_version (Some (u32 v)) m) else
              if decide (num = 5%N) then Ok (ss_set_previousCounter (Some (u32 v)) m) else
              if decide (num = 10%N) then Ok (ss_set_remoteRegId (Some (u32 v)) m) else
              if decide (num = 11%N) then Ok (ss_set_localRegId (Some (u32 v)) m) else
              if decide (num = 12%N) then Ok (ss_set_needsRefresh (Some (negb (v =? 0)%N)) m) else Ok m
  | WLen b => if decide (num = 2%N) then Ok (ss_set_localIdentity (Some b) m) else
              if decide (num = 3%N) then Ok (ss_set_remoteIdentity (Some b) m) else
              if decide (num = 4%N) then Ok (ss_set_rootKey (Some b) m) else
              if decide (num = 6%N) then c ← ch_merge (default ch_empty (ss_senderChain m)) b; Ok (ss_set_senderChain (Some c) m) else
              if decide (num = 7%N) then c ← ch_merge ch_empty b; Ok (ss_set_receiverChains (ss_receiverChains m ++ [c]) m) else
              if decide (num = 8%N) then c ← px_merge (default px_empty (ss_pendingKeyExchange m)) b; Ok (ss_set_pendingKeyExchange (Some c) m) else
              if decide (num = 9%N) then c ← pp_merge (default pp_empty (ss_pendingPreKey m)) b; Ok (ss_set_pendingPreKey (Some c) m) else
              if decide (num = 13%N) then Ok (ss_set_aliceBaseKey (Some b) m) else Ok m
  | _ => Ok m
  end.
Proof. destruct v; try (by destruct num as [|[[[[]|[]|]|[[]|[]|]|]|[[[]|[]|]|[[]|[]|]|]|]]). Qed.
Lemma ss_sound : sound ss_step ss_empty says_session.
Proof.
  apply sound_steps.
  - intros []. unfold says_session. rewrite !part_nil, parts_nil. cbn. split.
    + intros. destruct_and?. by subst.
    + intros E. injection E. intros. by subst.
  - intros fs [num v] a. setoid_rewrite ss_step_eq. destruct v as [n|n|b|n|]; [|same says_session| |same says_session|same says_session].
    { field num 1%N; [value says_session (ss_set_version (the_number 1 fs) a)|].
      field num 5%N; [value says_session (ss_set_previousCounter (the_number 5 fs) a)|].
      field num 10%N; [value says_session (ss_set_remoteRegId (the_number 10 fs) a)|].
      field num 11%N; [value says_session (ss_set_localRegId (the_number 11 fs) a)|].
      field num 12%N; [value says_session (ss_set_needsRefresh (the_flag 12 fs) a)|].
      same says_session. }
    field num 2%N; [value says_session (ss_set_localIdentity (the_bytes 2 fs) a)|].
    field num 3%N; [value says_session (ss_set_remoteIdentity (the_bytes 3 fs) a)|].
    field num 4%N; [value says_session (ss_set_rootKey (the_bytes 4 fs) a)|].
    field num 6%N; [opt_part says_session ch_sound (fun o => ss_set_senderChain o a)|].
    field num 7%N; [rep_part says_session ch_sound (fun l => ss_set_receiverChains l a)|].
    field num 8%N; [opt_part says_session px_sound (fun o => ss_set_pendingKeyExchange o a)|].
    field num 9%N; [opt_part says_session pp_sound (fun o => ss_set_pendingPreKey o a)|].
    field num 13%N; [value says_session (ss_set_aliceBaseKey (the_bytes 13 fs) a)|].
    same says_session.
Qed.

Lemma rs_step_eq m num v : rs_step m (num, v) =
  match v with
  | WLen b => if decide (num = 1%N) then c ← ss_merge (default ss_empty (rs_currentSession m)) b; Ok (rs_set_currentSession (Some c) m) else
              if decide (num = 2%N) then c ← ss_merge ss_empty b; Ok (rs_set_previousSessions (rs_previousSessions m ++ [c]) m) else Ok m
  | _ => Ok m
  end.
Proof. destruct v; try (by destruct num as [|[[[]|[]|]|[[]|[]|]|]]). Qed.
Lemma rs_sound : sound rs_step rs_empty says_record.
Proof.
  apply sound_steps.
  - intros []. unfold says_record. rewrite part_nil, parts_nil. cbn. split.
    + intros (-> & ->). done.
    + by intros [= -> ->].
  - intros fs [num v] a. setoid_rewrite rs_step_eq. destruct v as [n|n|b|n|]; [same says_record..| |same says_record|same says_record].
    field num 1%N; [opt_part says_record ss_sound (fun o => rs_set_currentSession o a)|].
    field num 2%N; [rep_part says_record ss_sound (fun l => rs_set_previousSessions l a)|].
    same says_record.
Qed.

Lemma st_step_eq m num v : st_step m (num, v) =
  match v with
  | WVar v => if decide (num = 1%N) then Ok (st_set_senderKeyId (Some (u32 v)) m) else Ok m
  | WLen b => if decide (num = 2%N) then c ← sck_merge (default sck_empty (st_senderChainKey m)) b; Ok (st_set_senderChainKey (Some c) m) else
              if decide (num = 3%N) then c ← ssk_merge (default ssk_empty (st_senderSigningKey m)) b; Ok (st_set_senderSigningKey (Some c) m) else
              if decide (num = 4%N) then c ← smk_merge smk_empty b; Ok (st_set_senderMessageKeys (st_senderMessageKeys m ++ [c]) m) else Ok m
  | _ => Ok m
  end.
Proof. destruct v; try (by destruct num as [|[[[]|[]|]|[[]|[]|]|]]). Qed.
Lemma st_sound : sound st_step st_empty says_sender_state.
Proof.
  apply sound_steps.
  - intros []. unfold says_sender_state. rewrite !part_nil, parts_nil. cbn. split.
    + intros (-> & -> & -> & ->). done.
    + by intros [= -> -> -> ->].
  - intros fs [num v] a. setoid_rewrite st_step_eq. destruct v as [n|n|b|n|]; [|same says_sender_state| |same says_sender_state|same says_sender_state].
    { field num 1%N; [value says_sender_state (st_set_senderKeyId (the_number 1 fs) a)|]. same says_sender_state. }
    field num 2%N; [opt_part says_sender_state sck_sound (fun o => st_set_senderChainKey o a)|].
    field num 3%N; [opt_part says_sender_state ssk_sound (fun o => st_set_senderSigningKey o a)|].
    field num 4%N; [rep_part says_sender_state smk_sound (fun l => st_set_senderMessageKeys l a)|].
    same says_sender_state.
Qed.

Definition says_sr (fs : list wfield) (r : sr_s) : Prop := parts says_sender_state 1 fs (sr_senderKeyStates r).
Lemma sr_step_eq m num v : sr_step m (num, v) =
  match v with
  | WLen b => if decide (num = 1%N) then c ← st_merge st_empty b; Ok (sr_set_senderKeyStates (sr_senderKeyStates m ++ [c]) m) else Ok m
  | _ => Ok m
  end.
Proof. destruct v; try (by destruct num as [|[[[]|[]|]|[[]|[]|]|]]). Qed.
Lemma sr_sound : sound sr_step sr_empty says_sr.
Proof.
  apply sound_steps.
  - intros []. unfold says_sr. rewrite parts_nil. cbn. split; [by intros ->|by intros [= ->]].
  - intros fs [num v] a. setoid_rewrite sr_step_eq. destruct v as [n|n|b|n|]; [same says_sr..| |same says_sr|same says_sr].
    field num 1%N; [|same says_sr].
    apply (merge_step (says_sr fs) (says_sr (fs ++ [(1%N, WLen b)]))); unfold says_sr.
    + intros [] c Hm Hc. apply (parts_snoc _ _ _ _ _ _ _ st_sound). eauto 10.
    + intros Ha. apply (parts_snoc _ _ _ _ _ _ _ st_sound) in Ha as (l & c & Hl & Hc & Ha). exists (SrS l), c.
      split; [done|]. split; [done|]. destruct a. cbn in *. by subst.
Qed.

(** ** The functions that read records *)
Lemma rs_reads bs r : rs_parse bs = Ok r <-> exists fs, wire bs fs /\ says_record fs r.
Proof. exact (sound_parse _ _ _ bs r rs_sound). Qed.
Lemma session_reads bs r : bs <> [] ->
  sr_deserialize bs = Ok r <->
  exists fs p, wire bs fs /\ says_record fs p /\ sr_fresh r = false /\
    sr_state r = default ss_empty (rs_currentSession p) /\ sr_previous r = rs_previousSessions p.
Proof.
  intros Hne. unfold sr_deserialize. destruct bs as [|b bs]; [done|]. split.
  - intros (p & (fs & Hw & Hs)%rs_reads & [= <-])%bind_ok_inv. by exists fs, p.
  - intros (fs & p & Hw & Hs & H1 & H2 & H3). rewrite (proj2 (rs_reads (b :: bs) p)) by (by exists fs). cbn.
    destruct r. cbn in *. by subst.
Qed.
Lemma sender_reads bs l : skr_deserialize bs = Ok l <-> exists fs, wire bs fs /\ says_sender_record fs l.
Proof.
  assert (H : (r ← sr_parse bs; Ok (sr_senderKeyStates r)) = Ok l <-> exists fs, wire bs fs /\ says_sender_record fs l).
  { split.
    - intros (p & Hp & [= <-])%bind_ok_inv. by apply (sound_parse _ _ _ bs p sr_sound) in Hp.
    - intros (fs & Hw & Hs). assert (Hp : sr_parse bs = Ok (SrS l)) by (apply (sound_parse _ _ _ bs _ sr_sound); by exists fs). by rewrite Hp. }
  destruct bs; [|exact H]. rewrite <- H. reflexivity.
Qed.
Lemma prekey_record_reads bs r : bs <> [] -> prekeyrecord_parse bs = Ok r <-> exists fs, wire bs fs /\ says_prekey fs r.
Proof. intros H. destruct bs; [done|]. exact (sound_parse _ _ _ _ r pr_sound). Qed.
Lemma signed_record_reads bs r : bs <> [] -> signedprekeyrecord_parse bs = Ok r <-> exists fs, wire bs fs /\ says_signed_prekey fs r.
Proof. intros H. destruct bs; [done|]. exact (sound_parse _ _ _ _ r spr_sound). Qed.
Lemma identity_reads bs k :
  identitykeypair_parse bs = Ok k <->
  exists fs pub, wire bs fs /\ the_bytes 1 fs = Some pub /\ key_in pub (kp_pub k) /\ kp_priv k = default [] (the_bytes 2 fs).
Proof.
  unfold identitykeypair_parse. split.
  - intros (s & Hs & (p & Hp & [= <-])%bind_ok_inv)%bind_ok_inv.
    apply (sound_parse _ _ _ bs s ik_sound) in Hs as (fs & Hw & H1 & H2). rewrite H1 in Hp. rewrite H2.
    destruct (the_bytes 1 fs) as [b|] eqn:E; [|done]. exists fs, b. split; [done|]. split; [done|].
    split; [|done]. by apply decode_key in Hp.
  - intros (fs & b & Hw & E & Hk & Hp).
    assert (Hs : ik_parse bs = Ok (IkS (the_bytes 1 fs) (the_bytes 2 fs))) by (apply (sound_parse _ _ _ bs _ ik_sound); by exists fs).
    rewrite Hs. cbn [mbind]. cbn. rewrite E. cbn. apply decode_key in Hk. rewrite Hk. cbn. destruct k. cbn in *. by subst.
Qed.

(** Everything else is refused. *)
Lemma session_refused bs e : sr_deserialize bs = Err e -> e = EDecodeError.
Proof. apply sr_deserialize_err. Qed.
Lemma sender_refused bs e : skr_deserialize bs = Err e -> e = EDecodeError.
Proof. unfold skr_deserialize. destruct bs; [done|]. destruct (sr_parse _) eqn:E; [done|]. intros [= <-]. by eapply sr_parse_err. Qed.
Lemma prekey_record_refused bs e : prekeyrecord_parse bs = Err e -> e = if decide (bs = []) then ETypeError else EDecodeError.
Proof. destruct bs; [by intros [= <-]|]. intros H. rewrite decide_False by done. by eapply pr_parse_err. Qed.
Lemma signed_record_refused bs e : signedprekeyrecord_parse bs = Err e -> e = if decide (bs = []) then ETypeError else EDecodeError.
Proof. destruct bs; [by intros [= <-]|]. intros H. rewrite decide_False by done. by eapply spr_parse_err. Qed.

(** What is written says what was meant. *)
Lemma session_written r : rec_wf r -> exists fs, wire (sr_serialize r) fs /\ says_record fs (RsS (Some (sr_state r)) (sr_previous r)).
Proof. intros [H1 H2]. apply rs_reads. by apply rs_roundtrip. Qed.
Lemma sender_written l : Forall st_wf l -> exists fs, wire (skr_serialize l) fs /\ says_sender_record fs l.
Proof. intros H. apply sender_reads. by apply skr_roundtrip. Qed.
Lemma prekey_record_written id kp r : length (kp_pub kp) <= 32 -> prekeyrecord_create id kp = Ok r ->
  exists fs, wire (pr_enc r) fs /\ the_number 1 fs = Some id /\ the_bytes 2 fs = Some (x05 :: kp_pub kp) /\ the_bytes 3 fs = Some (kp_priv kp).
Proof.
  intros Hk H. pose proof (prekeyrecord_roundtrip _ _ _ Hk H) as (Hp & _ & _).
  apply prekey_record_reads in Hp as (fs & Hw & H1 & H2 & H3); [|intros E; by rewrite E in Hp].
  apply bind_ok_inv in H as (i & [-> Hi]%set_u32_inv & [= <-]). exists fs. by split_and!.
Qed.
Lemma signed_record_written id ts kp sig r : length (kp_pub kp) <= 32 -> signedprekeyrecord_create id ts kp sig = Ok r ->
  exists fs, wire (spr_enc r) fs /\ the_number 1 fs = Some id /\ the_bytes 2 fs = Some (x05 :: kp_pub kp) /\
    the_bytes 3 fs = Some (kp_priv kp) /\ the_bytes 4 fs = Some sig /\ the_fixed 5 fs = Some ts.
Proof.
  intros Hk H. pose proof (signedprekeyrecord_roundtrip _ _ _ _ _ Hk H) as (Hp & _).
  apply signed_record_reads in Hp as (fs & Hw & H1 & H2 & H3 & H4 & H5); [|intros E; by rewrite E in Hp].
  apply bind_ok_inv in H as (i & [-> Hi]%set_u32_inv & H). apply bind_ok_inv in H as (t & Ht & [= <-]).
  unfold set_u64 in Ht. destruct (N.ltb_spec ts (2 ^ 64)); [|done]. injection Ht as <-. exists fs. by split_and!.
Qed.
Lemma identity_written kp : exists fs, wire (identitykeypair_serialize kp) fs /\
  the_bytes 1 fs = Some (x05 :: kp_pub kp) /\ the_bytes 2 fs = Some (kp_priv kp).
Proof.
  assert (H : ik_parse (identitykeypair_serialize kp) = Ok (IkS (Some (pub_serialize (kp_pub kp))) (Some (kp_priv kp)))) by by apply ik_roundtrip.
  apply (sound_parse _ _ _ _ _ ik_sound) in H as (fs & Hw & H1 & H2). by exists fs.
Qed.

(** A message field is never read in two ways. *)
Lemma session_unambiguous fs p p' : says_record fs p -> says_record fs p' -> p = p'.
Proof. intros H1%rs_sound H2%rs_sound. congruence. Qed.
