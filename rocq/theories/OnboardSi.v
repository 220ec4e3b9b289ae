(** Lemmas: the service info lists that a device and its owner exchange. *)
From Verif Require Import Base BaseFacts CborSpec CborModel CborProofs ValueModel ValueProofs Text Hex TypesModel CryptoSpec TypesProofs VoucherModel VoucherSpec VoucherProofs
  KexModel KexSpec RvModel MsgModel SessionModel HttpClientModel RvServerModel SiModel DevSiModel SiSpec SiProofs SiProofs3 SiApiModel SiApiSpec SiApiProofs SiApiRun OwnerModel ClientModel ClientSpec OnboardSpec.
From Coq Require Import ZifyBool ZifyNat ZifyN.
Local Open Scope N_scope.
Set Default Proof Using "Type".
Local Opaque dec_top from_slice any_value.

(** ** Writing *)
Lemma head_ok m v : m < 8 -> bytes_ok (enc_head m v).
Proof.
  intros M. unfold enc_head, bytes_ok. destruct (N.ltb_spec v 24); [repeat constructor; lia|].
  repeat match goal with |- context [if ?b then _ else _] => destruct b end; (constructor; [lia|]); try apply be_enc_ok; repeat constructor; try apply N.mod_lt; try lia.
Qed.
Lemma concat_ok (l : list bytes) : Forall bytes_ok l -> bytes_ok (concat l).
Proof. induction 1; cbn [concat]; [constructor|]. apply bytes_ok_app. split; assumption. Qed.
Definition pair_val (kb : str * bytes) : cval := VArr [text_val (fst kb); VBytes (snd kb)].
Lemma len_in (x : bytes) l : In x l -> nlen x <= nlen (concat l).
Proof. induction l as [|y l IH]; [intros []|]. intros [->|I]; cbn [concat]; rewrite nlen_app; [lia|]. specialize (IH I). lia. Qed.
Lemma len_items (l : list bytes) : Forall (fun x => 1 <= nlen x) l -> nlen l <= nlen (concat l).
Proof. induction 1 as [|x l H F IH]; cbn [concat]; [unfold nlen; cbn; lia|]. rewrite nlen_app. unfold nlen in *. cbn [length]. lia. Qed.
Lemma enc_arr l : enc (VArr l) = enc_head 4 (nlen l) ++ concat (map enc l).
Proof. reflexivity. Qed.
Lemma silist_vok l : Forall legible l -> nlen (enc (silist_val l)) < two64 -> vok 3 (silist_val l).
Proof.
  intros F S. unfold silist_val in *. rewrite enc_arr, nlen_app, map_map in S.
  assert (L : nlen l < two64).
  { assert (H : nlen (map (fun x => enc (pair_val x)) l) <= nlen (concat (map (fun x => enc (pair_val x)) l))).
    { apply len_items. apply Forall_map. apply Forall_forall. intros x _. unfold pair_val. rewrite enc_arr, nlen_app. pose proof (enc_head_nlen 4 (nlen [text_val (fst x); VBytes (snd x)])).
      pose proof (nlen_app (enc_head 4 (nlen [text_val (fst x); VBytes (snd x)])) []). assert (1 <= nlen (enc_head 4 (nlen [text_val (fst x); VBytes (snd x)]))) by (vm_compute; discriminate). lia. }
    unfold nlen in *. rewrite map_length in H. unfold pair_val in H. lia. }
  cbn [vok]. split; [unfold nlen in *; rewrite map_length; exact L|]. apply Forall_map. rewrite Forall_forall in *. intros [k b] I. destruct (F _ I) as [K B]. cbn [fst snd] in *.
  assert (SZ : nlen (enc (pair_val (k, b))) < two64).
  { pose proof (len_in (enc (pair_val (k, b))) (map (fun x => enc (pair_val x)) l)) as H. specialize (H (in_map (fun x => enc (pair_val x)) _ _ I)). unfold pair_val in *. lia. }
  unfold pair_val in SZ. rewrite enc_arr in SZ. cbn [fst snd map concat] in SZ. unfold text_val in SZ. cbn [enc] in SZ. rewrite !nlen_app in SZ.
  cbn [vok]. split; [unfold two64, nlen; cbn [length]; lia|]. constructor; [|constructor; [|constructor]].
  - split; [apply utf8_enc_ok; exact K|lia].
  - split; [exact B|lia].
Qed.
Lemma silist_back l : Forall legible l -> as_silist (silist_val l) = Some l.
Proof.
  unfold as_silist, as_list, silist_val. cbn [untag]. induction l as [|[k b] l IH]; intros F; [reflexivity|]. inversion F as [|? ? [K _] F']; subst.
  cbn [map all_some]. unfold as_siitem at 1. cbn [as_fields untag fst snd text_val as_string as_bytebuf]. rewrite (utf8_roundtrip k K). rewrite IH by exact F'. reflexivity.
Qed.
Lemma dsi_read more l : Forall legible l -> nlen (enc (silist_val l)) < two64 -> from_slice as_dsi (enc (VArr [VBool more; silist_val l])) = Ok (more, l).
Proof.
  intros F S. rewrite from_slice_enc.
  - pose proof (silist_back l F) as B. set (L := silist_val l) in *. unfold as_dsi. cbn [as_fields untag as_bool]. rewrite B. reflexivity.
  - eapply vok_mono with (d := 4%nat); [|unfold MAX_DEPTH; lia]. pose proof (silist_vok l F S) as V. set (L := silist_val l) in *. cbn [vok] in V |- *. split; [unfold two64, nlen; cbn [length]; lia|]. constructor; [exact Logic.I|]. constructor; [exact V|constructor].
Qed.
Lemma osi_read more fin l : Forall legible l -> nlen (enc (silist_val l)) < two64 -> from_slice as_osi (enc (VArr [VBool more; VBool fin; silist_val l])) = Ok (more, fin, l).
Proof.
  intros F S. rewrite from_slice_enc.
  - pose proof (silist_back l F) as B. set (L := silist_val l) in *. unfold as_osi. cbn [as_fields untag as_bool]. rewrite B. reflexivity.
  - eapply vok_mono with (d := 4%nat); [|unfold MAX_DEPTH; lia]. pose proof (silist_vok l F S) as V. set (L := silist_val l) in *. cbn [vok] in V |- *. split; [unfold two64, nlen; cbn [length]; lia|]. constructor; [exact Logic.I|]. constructor; [exact Logic.I|]. constructor; [exact V|constructor].
Qed.

(** ** What the device tells of itself *)
Section device.
Context (wo : world) (name : str) (RL : wo_release wo = Some (Some name)) (SN : sendable name) (SA : sendable (wo_arch wo))
  (ND : NoDup (wo_mods wo)) (KM : Forall (fun m => In m (map fst known_modules)) (wo_mods wo)).
Definition told : list sientry :=
  let n := VInt (Z.of_N (nlen (offered wo))) in
  [(DevMod, txt "active", VBool true); (DevMod, txt "os", text_val (txt "linux")); (DevMod, txt "arch", text_val (wo_arch wo)); (DevMod, txt "version", text_val name);
   (DevMod, txt "device", text_val (txt "unused")); (DevMod, txt "sep", text_val (txt ":")); (DevMod, txt "bin", text_val (wo_arch wo));
   (DevMod, txt "nummodules", n); (DevMod, txt "modules", VArr (VInt 0 :: n :: map (fun m => VText (utf8_enc (simod_text m))) (offered wo)))].
Lemma first_told : first_info wo = Ok (si_of told).
Proof using RL. unfold first_info. rewrite RL. cbn [of_option bind unwrap]. unfold si_add_modules. fold (offered wo). rewrite si_of_map. reflexivity. Qed.
Lemma offered_known m : In m (offered wo) -> In m (map fst known_modules).
Proof using KM. intros I. unfold offered in I. apply in_app_or in I. destruct I as [I|I]; [|rewrite Forall_forall in KM; apply KM; exact I]. cbn in I |- *. tauto. Qed.
Lemma offered_few : nlen (offered wo) <= 20.
Proof using KM ND.
  unfold offered. rewrite nlen_app. assert (L : (length (wo_mods wo) <= length (map fst known_modules))%nat) by (apply NoDup_incl_length; [exact ND|intros m I; rewrite Forall_forall in KM; apply KM; exact I]).
  assert (E : length (map fst known_modules) = 7%nat) by reflexivity. unfold nlen. cbn [length]. lia.
Qed.
Lemma known_text m : In m (map fst known_modules) -> sendable (simod_text m) /\ ~ In COMMA (simod_text m) /\ simod_of (simod_text m) = m.
Proof.
  intros I. cbn [known_modules map fst In] in I. 
  repeat (destruct I as [<-|I]; [split; [split; vm_compute; reflexivity|]; split; [cbn; intros H; repeat (destruct H as [H|H]; [discriminate|]); exact H|vm_compute; reflexivity]|]). destruct I.
Qed.
Lemma told_ok : Forall entry_ok told.
Proof using SN SA KM ND.
  assert (D : ~ In COLON (simod_text DevMod)) by (cbn; intros H; repeat (destruct H as [H|H]; [discriminate|]); exact H).
  assert (E : forall key v, vok 4 v -> texts_ok v = true -> entry_ok (DevMod, key, v)).
  { intros key v V T. split; [intros ? X; discriminate X|]. split; [exact D|]. split; [eapply vok_mono; [exact V|unfold MAX_DEPTH; lia]|exact T]. }
  assert (T : forall s, sendable s -> vok 3 (text_val s) /\ texts_ok (text_val s) = true).
  { intros s [S L]. split; [apply vok_text; [lia|exact S|exact L]|]. unfold text_val. cbn [texts_ok]. rewrite utf8_roundtrip by exact S. reflexivity. }
  assert (TE : forall key s, sendable s -> entry_ok (DevMod, key, text_val s)).
  { intros key s S. destruct (T s S). apply E; [eapply vok_mono; [eassumption|lia]|assumption]. }
  assert (CS : forall s, (forallb is_scalar s && (nlen (utf8_enc s) <? 100)) = true -> sendable s).
  { intros s H. split; [destruct (forallb is_scalar s); [reflexivity|discriminate]|lia]. }
  pose proof offered_few as OF. unfold told. cbv zeta.
  assert (NV : vok 3 (VInt (Z.of_N (nlen (offered wo))))) by (cbn [vok]; unfold two64; lia).
  constructor; [apply E; [exact Logic.I|reflexivity]|]. constructor; [apply TE; apply CS; vm_compute; reflexivity|]. constructor; [apply TE; exact SA|]. constructor; [apply TE; exact SN|].
  constructor; [apply TE; apply CS; vm_compute; reflexivity|]. constructor; [apply TE; apply CS; vm_compute; reflexivity|]. constructor; [apply TE; exact SA|]. constructor; [apply E; [eapply vok_mono; [exact NV|lia]|reflexivity]|].
  constructor; [|constructor].
  apply E.
  - set (n := VInt _) in *. cbn [vok]. split; [unfold nlen in *; cbn [length]; rewrite map_length; unfold two64; lia|]. constructor; [cbn [vok]; unfold two64; lia|]. constructor; [exact NV|].
    apply Forall_map. apply Forall_forall. intros m I. apply (T (simod_text m)). apply known_text. apply offered_known. exact I.
  - cbn [texts_ok forallb]. apply forallb_forall. intros v I. apply in_map_iff in I. destruct I as (m & <- & I). apply (T (simod_text m)). apply known_text. apply offered_known. exact I.
Qed.
Lemma told_legible : Forall legible (si_of told).
Proof using SN SA KM ND.
  rewrite si_of_map. apply Forall_map. apply Forall_forall. intros x I. split; [|apply entry_bytes_ok; pose proof told_ok as H; rewrite Forall_forall in H; apply H; exact I].
  unfold told in I. cbv zeta in I. repeat (destruct I as [<-|I]; [reflexivity|]). destruct I.
Qed.
Lemma names_back : forall l, Forall (fun m => In m (map fst known_modules)) l -> all_some (map as_string (map (fun m => VText (utf8_enc (simod_text m))) l)) = Some (map simod_text l).
Proof.
  induction l as [|m l IH]; intros F; [reflexivity|]. inversion F; subst. cbn [map all_some as_string untag]. destruct (known_text m) as ([S _] & _); [assumption|].
  rewrite (utf8_roundtrip _ S), IH by assumption. reflexivity.
Qed.
Lemma told_modules : last_modules None (si_iter (si_of told)) = Ok (Some (dedupe [] (map simod_text (offered wo)))).
Proof using SN SA KM ND.
  rewrite si_iter_of by apply told_ok. unfold told. cbv zeta. cbn [last_modules].
  repeat match goal with |- context [simod_eqb DevMod DevMod && text_eqb (txt ?a) (txt ?b)] => let r := eval vm_compute in (text_eqb (txt a) (txt b)) in change (simod_eqb DevMod DevMod && text_eqb (txt a) (txt b)) with r end.
  cbv iota. unfold module_list. cbn [untag skipn]. rewrite names_back; [reflexivity|]. apply Forall_forall. apply offered_known.
Qed.
Lemma dedupe_mem l x : forall seen, existsb (text_eqb x) seen = false -> In x l -> In x (dedupe seen l).
Proof.
  induction l as [|y l IH]; intros seen S I; [destruct I|]. cbn [dedupe]. destruct (text_eqb x y) eqn:E.
  - apply text_eqb_eq in E. subst y. rewrite S. left. reflexivity.
  - destruct I as [->|I]; [rewrite text_eqb_refl in E; discriminate|]. destruct (existsb (text_eqb y) seen); [apply IH; assumption|]. right. apply IH; [|exact I].
    cbn [existsb]. rewrite E, S. reflexivity.
Qed.
Definition asked : list simod := asked_of (join COMMA (dedupe [] (map simod_text (offered wo)))).
Lemma asked_mem m : existsb (simod_eqb m) asked = existsb (simod_eqb m) (offered wo).
Proof using KM.
  unfold asked, asked_of. rewrite split_commas.
  - apply eq_iff_eq_true. rewrite !existsb_exists. split; intros (y & I & E); apply simod_eqb_eq in E; subst y; exists m; (split; [|apply simod_eqb_eq; reflexivity]).
    + apply in_map_iff in I. destruct I as (s & E & I). apply dedupe_in in I. apply in_map_iff in I. destruct I as (m' & <- & I).
      destruct (known_text m') as (_ & _ & K); [apply offered_known; exact I|]. congruence.
    + apply in_map_iff. exists (simod_text m). destruct (known_text m) as (_ & _ & K); [apply offered_known; exact I|]. split; [exact K|]. apply dedupe_mem; [reflexivity|]. apply in_map. exact I.
  - intros X. assert (H : In (simod_text DevMod) (dedupe [] (map simod_text (offered wo)))) by (apply dedupe_mem; [reflexivity|]; apply in_map; left; reflexivity). rewrite X in H. destruct H.
  - apply Forall_forall. intros s I. apply dedupe_in in I. apply in_map_iff in I. destruct I as (m' & <- & I). apply known_text. apply offered_known. exact I.
Qed.
Lemma asked_part {A} m (o : option (list A)) : part asked m o = part (offered wo) m o.
Proof using KM. unfold part. rewrite asked_mem. reflexivity. Qed.
End device.

(** ** What the device answers *)
Section answer.
Context (c : crypto) (w : machine) (prefix : option str) (WO : forall es e out err code, w (es ++ [e]) = Output out err code -> bytes_ok out /\ bytes_ok err).
Definition scalars (s : str) : Prop := forallb is_scalar s = true.
Definition opt_scalars (o : option str) : Prop := forall s, o = Some s -> scalars s.
Record answers_ok (s : dst) : Prop := {
  ak_out : Forall legible (d_out s);
  ak_cmd : opt_scalars (cm_cmd (d_cmd s)) /\ Forall scalars (cm_args (d_cmd s));
  ak_disk : opt_scalars (dk_label (d_disk s)) }.
Definition fine (r : res) : Prop := answers_ok (fst r).
Lemma fine_need {A} s (x : option A) f : answers_ok s -> (forall a, x = Some a -> fine (f a)) -> fine (need s x f).
Proof. intros S F. destruct x; [apply F; reflexivity|exact S]. Qed.
Lemma fine_andthen r f : fine r -> (forall s, answers_ok s -> fine (f s)) -> fine (andthen r f).
Proof. intros R F. destruct r as [s [u| |]]; cbn [andthen]; [apply F; exact R|exact R|exact R]. Qed.
Lemma noted_ok s n : answers_ok s -> answers_ok (noted s n).
Proof. intros [A B C]. constructor; assumption. Qed.
Lemma fine_perform s e f : answers_ok s -> (forall s1 a, answers_ok s1 -> (forall out err code, a = Output out err code -> bytes_ok out /\ bytes_ok err) -> fine (f s1 a)) -> fine (perform w s e f).
Proof using WO. intros S F. unfold perform. cbv zeta. apply F; [apply noted_ok; exact S|]. intros out err code E. cbn [noted d_log] in E. rewrite effects_app in E. eapply WO. exact E. Qed.
Lemma fine_simple s a f : answers_ok s -> (forall s1, answers_ok s1 -> fine (f s1)) -> fine (simple s a f).
Proof. intros S F. destruct a; cbn [simple]; try exact S; apply F; exact S. Qed.
Lemma add_out_ok s m key v : answers_ok s -> scalars (simod_text m ++ COLON :: key) -> bytes_ok (enc v) -> answers_ok (add_out s m key v).
Proof. intros [A B C] K V. constructor; [|exact B|exact C]. cbn [add_out d_out]. unfold si_add. apply Forall_app. split; [exact A|]. constructor; [split; assumption|constructor]. Qed.
Lemma text_enc_ok s : scalars s -> bytes_ok (enc (VText (utf8_enc s))).
Proof. clear WO. intros S. cbn [enc]. apply bytes_ok_app. split; [apply head_ok; lia|apply utf8_enc_ok; exact S]. Qed.
Lemma bytes_enc_ok b : bytes_ok b -> bytes_ok (enc (VBytes b)).
Proof. clear WO. intros B. cbn [enc]. apply bytes_ok_app. split; [apply head_ok; lia|exact B]. Qed.
Lemma texts_enc_ok l : Forall scalars l -> bytes_ok (enc (VArr (map (fun a => VText (utf8_enc a)) l))).
Proof. clear WO. intros F. rewrite enc_arr. apply bytes_ok_app. split; [apply head_ok; lia|]. apply concat_ok. rewrite map_map. apply Forall_map. eapply Forall_impl; [|exact F]. exact text_enc_ok. Qed.
Lemma int_enc_ok z : bytes_ok (enc (opt_int z)).
Proof. clear WO. destruct z as [z|]; cbn [opt_int enc]; [unfold enc_int; destruct (0 <=? z)%Z; apply head_ok; lia|repeat constructor; lia]. Qed.
Lemma bool_enc_ok b : bytes_ok (enc (VBool b)).
Proof. clear WO. destruct b; repeat constructor; lia. Qed.
Lemma v_str_scalars v s : v_str v = Some s -> scalars s.
Proof. destruct v; cbn [v_str]; try discriminate. intros H. apply (utf8_dec_enc b s H). Qed.
Lemma v_strs_scalars v l : v_strs v = Some l -> Forall scalars l.
Proof.
  destruct v; cbn [v_strs]; try discriminate. revert l. induction l0 as [|x r IH]; intros l H; cbn [v_texts] in H; [inversion H; constructor|].
  destruct (v_str x) as [s|] eqn:E; [|discriminate]. destruct (v_texts r) as [ss|]; [|discriminate]. inversion H; subst. constructor; [eapply v_str_scalars; exact E|apply IH; reflexivity].
Qed.
Lemma fine_command s : answers_ok s -> fine (run_command w s (d_cmd s)).
Proof using WO.
  intros S. unfold run_command. destruct S as [S1 [S2 S2'] S3]. pose proof (Build_answers_ok _ S1 (conj S2 S2') S3) as S. destruct (cm_cmd (d_cmd s)) as [cmd|] eqn:EC; [|exact S]. cbv zeta.
  apply fine_perform.
  - apply add_out_ok; [apply add_out_ok; [exact S|reflexivity|apply text_enc_ok; apply S2; reflexivity]|reflexivity|apply texts_enc_ok; exact S2'].
  - intros s3 a S3' O. destruct a as [| | |out err code]; try exact S3'. destruct (O _ _ _ eq_refl) as [O1 O2].
    assert (S4 : answers_ok (if cm_out (d_cmd s) then add_out s3 Command (txt "stdout") (VBytes out) else s3)) by (destruct (cm_out (d_cmd s)); [apply add_out_ok; [exact S3'|reflexivity|apply bytes_enc_ok; exact O1]|exact S3']).
    revert S4. generalize (if cm_out (d_cmd s) then add_out s3 Command (txt "stdout") (VBytes out) else s3). intros s4 S4.
    assert (S5 : answers_ok (if cm_err (d_cmd s) then add_out s4 Command (txt "stderr") (VBytes err) else s4)) by (destruct (cm_err (d_cmd s)); [apply add_out_ok; [exact S4|reflexivity|apply bytes_enc_ok; exact O2]|exact S4]).
    revert S5. generalize (if cm_err (d_cmd s) then add_out s4 Command (txt "stderr") (VBytes err) else s4). intros s5 S5.
    assert (S6 : answers_ok (add_out s5 Command (txt "exit_code") (opt_int code))) by (apply add_out_ok; [exact S5|reflexivity|apply int_enc_ok]).
    match goal with |- fine (if ?b then _ else _) => destruct b end; exact S6.
Qed.
Lemma fine_disk s : answers_ok s -> fine (run_disk w s (d_disk s)).
Proof using WO.
  intros S. unfold run_disk. apply fine_need; [exact S|]. intros label EL. apply fine_need; [exact S|]. intros pin _. apply fine_need; [exact S|]. intros config _.
  assert (SL : scalars label) by (apply (ak_disk _ S); exact EL).
  apply fine_perform; [exact S|]. intros s1 a S1 _. apply fine_simple; [exact S1|]. clear s1 S1. intros s1 S1. cbv zeta.
  apply fine_perform; [apply add_out_ok; [exact S1|reflexivity|apply text_enc_ok; exact SL]|]. intros s3 a3 S3 _. apply fine_simple; [exact S3|]. clear s3 S3. intros s3 S3.
  assert (S4 : answers_ok (add_out s3 DiskEncryption (txt "bound") (VBool true))) by (apply add_out_ok; [exact S3|reflexivity|apply bool_enc_ok]).
  assert (FIN : forall s, answers_ok s -> fine (go (add_out s DiskEncryption (txt "reencrypt-initiated") (VBool (dk_reencrypt (d_disk s)))))) by (intros s' S'; apply add_out_ok; [exact S'|reflexivity|apply bool_enc_ok]).
  assert (FIN' : forall s' b, answers_ok s' -> fine (go (add_out s' DiskEncryption (txt "reencrypt-initiated") (VBool b)))) by (intros s' b S'; apply add_out_ok; [exact S'|reflexivity|apply bool_enc_ok]).
  destruct (dk_reencrypt (d_disk s)); [|apply FIN'; exact S4]. apply fine_perform; [exact S4|]. intros s5 a5 S5 _. apply fine_simple; [exact S5|]. intros s6 S6. apply FIN'. exact S6.
Qed.
Lemma none_scalars : opt_scalars None.
Proof. intros s E. discriminate. Qed.
Lemma some_scalars v s : v_str v = Some s -> opt_scalars (Some s).
Proof. intros E t X. inversion X; subst. eapply v_str_scalars. exact E. Qed.
Lemma fine_step s x : answers_ok s -> fine (step c w prefix s x).
Proof using WO.
  intros S0. destruct x as [[m key] v]. unfold step. cbv zeta. pose proof (noted_ok s (Read (m, key, v)) S0) as S. revert S. generalize (noted s (Read (m, key, v))). clear s S0. intros s S.
  destruct (text_eqb key (txt "active")).
  { apply fine_need; [exact S|]. intros on _. destruct S as [A B C]. constructor; assumption. }
  match goal with |- fine (if ?b then _ else _) => destruct b end; [exact S|].
  assert (SET : forall f, (forall x, d_out (f x) = d_out x /\ d_cmd (f x) = d_cmd x /\ d_disk (f x) = d_disk x) -> forall s, answers_ok s -> fine (go (f s))).
  { intros f F s' [A B C]. destruct (F s') as (E1 & E2 & E3). constructor; cbn [go fst]; rewrite ?E1, ?E2, ?E3; assumption. }
  destruct m; try exact S.
  - (* commands *) unfold step_cmd. cbv zeta. pose proof S as [A [B B'] C].
    destruct (text_eqb key (txt "command")).
    { destruct (cm_cmd (d_cmd s)); [exact S|]. apply fine_need; [exact S|]. intros x E. constructor; [exact A|split; [eapply some_scalars; exact E|exact B']|exact C]. }
    destruct (text_eqb key (txt "args")).
    { apply fine_need; [exact S|]. intros x E. constructor; [exact A|split; [exact B|eapply v_strs_scalars; exact E]|exact C]. }
    destruct (text_eqb key (txt "may_fail")). { apply fine_need; [exact S|]. intros x E. constructor; [exact A|split; [exact B|exact B']|exact C]. }
    destruct (text_eqb key (txt "return_stdout")). { apply fine_need; [exact S|]. intros x E. constructor; [exact A|split; [exact B|exact B']|exact C]. }
    destruct (text_eqb key (txt "return_stderr")). { apply fine_need; [exact S|]. intros x E. constructor; [exact A|split; [exact B|exact B']|exact C]. }
    destruct (text_eqb key (txt "execute")); [|exact S]. apply fine_andthen; [apply fine_command; exact S|]. intros s1 [A1 B1 C1]. constructor; [exact A1|split; [exact none_scalars|constructor]|exact C1].
  - (* ssh *) unfold step_ssh. repeat match goal with |- fine (if ?b then _ else _) => destruct b end; try exact S; (apply fine_need; [exact S|]; intros x E; destruct S as [A B C]; constructor; assumption).
  - (* files *) unfold step_bin. cbv zeta. 
    assert (SB : forall s b, answers_ok s -> fine (go (set_bin s b))) by (intros s' b [A B C]; constructor; assumption).
    destruct (text_eqb key (txt "name")). { destruct (bf_path (d_bin s)); [exact S|]. apply fine_need; [exact S|]. intros x _. apply SB. exact S. }
    destruct (text_eqb key (txt "length")). { destruct (bf_len (d_bin s)); [exact S|]. apply fine_need; [exact S|]. intros x _. destruct (CAPACITY <? x); [exact S|]. apply SB. exact S. }
    destruct (prefixb (txt "data") key). { destruct (bf_data (d_bin s)); [|exact S]. apply fine_need; [exact S|]. intros x _. apply SB. exact S. }
    destruct (text_eqb key (txt "mode")). { destruct (bf_mode (d_bin s)); [exact S|]. apply fine_need; [exact S|]. intros x _. apply SB. exact S. }
    destruct (prefixb (txt "sha-") key); [|exact S]. apply fine_need; [exact S|]. intros x _. apply fine_need; [exact S|]. intros t _. destruct (hash_from_digest t x); try exact S.
    apply fine_need; [exact S|]. intros p _. apply fine_need; [exact S|]. intros n _. destruct (bf_data (d_bin s)); [|exact S]. match goal with |- fine (if ?b then _ else _) => destruct b end; [exact S|].
    destruct (hash_compare_data c a b); try exact S. apply fine_andthen; [|intros s1 S1; apply SB; exact S1].
    unfold deploy. apply fine_need; [exact S|]. intros q _. cbv zeta. destruct (has_parent q); [|exact S]. apply fine_perform; [exact S|]. intros s1 a1 S1 _. apply fine_simple; [exact S1|]. intros s2 S2. exact S2.
  - (* disks *) unfold step_disk. cbv zeta. pose proof S as [A B C].
    destruct (text_eqb key (txt "disk-label")). { destruct (dk_label (d_disk s)); [exact S|]. apply fine_need; [exact S|]. intros x E. constructor; [exact A|exact B|eapply some_scalars; exact E]. }
    destruct (text_eqb key (txt "pin")). { destruct (dk_pin (d_disk s)); [exact S|]. apply fine_need; [exact S|]. intros x E. constructor; [exact A|exact B|exact C]. }
    destruct (text_eqb key (txt "config")). { destruct (dk_config (d_disk s)); [exact S|]. apply fine_need; [exact S|]. intros x E. constructor; [exact A|exact B|exact C]. }
    destruct (text_eqb key (txt "reencrypt")). { apply fine_need; [exact S|]. intros x E. constructor; [exact A|exact B|exact C]. }
    destruct (text_eqb key (txt "execute")); [|exact S]. apply fine_andthen; [apply fine_disk; exact S|]. intros s1 [A1 B1 C1]. constructor; [exact A1|exact B1|exact none_scalars].
  - destruct (text_eqb key (txt "reboot")); [|exact S]. apply fine_need; [exact S|]. intros b _. destruct S as [A B C]. constructor; assumption.
  - unfold step_rhsm. repeat match goal with |- fine (if ?b then _ else _) => destruct b end; try exact S; (apply fine_need; [exact S|]; intros x E; destruct S as [A B C]; constructor; assumption).
Qed.
Lemma fine_steps l : forall s, answers_ok s -> fine (steps c w prefix s l).
Proof using WO. induction l as [|x l IH]; intros s S; cbn [steps]; [exact S|]. apply fine_andthen; [apply fine_step; exact S|]. exact IH. Qed.
Lemma fine_keys user ks : forall s, answers_ok s -> fine (install_keys w user s ks).
Proof using WO.
  induction ks as [|k ks IH]; intros s S; cbn [install_keys]; [exact S|]. apply fine_perform; [exact S|]. intros s1 a S1 _. apply fine_simple; [exact S1|]. exact IH.
Qed.
Lemma fine_ssh s : answers_ok s -> fine (finish_ssh w s).
Proof using WO.
  intros S. unfold finish_ssh. match goal with |- fine (if ?b then _ else _) => destruct b end; [exact S|]. destruct (d_user s) as [user|]; [|exact S].
  assert (ONE : forall e s, answers_ok s -> fine (perform w s e (fun s1 a => simple s1 a go))).
  { intros e s' S'. apply fine_perform; [exact S'|]. intros s1 a S1 _. apply fine_simple; [exact S1|]. intros s2 S2. exact S2. }
  destruct (d_keys s) as [ks|], (d_pw s) as [pw|]; try exact S; (apply fine_andthen; [try (apply ONE); exact S|]; intros s1 S1; try exact S1);
    (apply fine_perform; [exact S1|]; intros s2 a S2 _; apply fine_simple; [exact S2|]; intros s3 S3; apply fine_keys; exact S3).
Qed.
Lemma fine_rhsm s : answers_ok s -> fine (finish_rhsm w s).
Proof using WO.
  intros S. unfold finish_rhsm. match goal with |- fine (if ?b then _ else _) => destruct b end; [exact S|]. destruct (d_org s) as [o|], (d_akey s) as [k|], (d_insights s) as [b|]; try exact S.
  apply fine_perform; [exact S|]. intros s1 a S1 _. apply fine_simple; [exact S1|]. intros s2 S2. destruct b; [|exact S2]. apply fine_perform; [exact S2|]. intros s3 a3 S3 _. apply fine_simple; [exact S3|]. intros s4 S4. exact S4.
Qed.
Lemma process_legible l out s r : process c w prefix l out = (s, r) -> Forall legible out -> Forall legible (d_out s).
Proof using WO.
  intros E O. assert (S : fine (process c w prefix l out)).
  { unfold process. apply fine_andthen; [apply fine_steps; constructor; [exact O|split; [exact none_scalars|constructor]|exact none_scalars]|].
    intros s1 S1. apply fine_andthen; [apply fine_ssh; exact S1|exact fine_rhsm]. }
  rewrite E in S. apply (ak_out _ S).
Qed.
End answer.
