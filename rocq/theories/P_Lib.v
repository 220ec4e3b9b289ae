(** C91, C92, C93: the C library for reading ownership vouchers. *)
From Verif Require Import Base BaseFacts CborSpec CborModel CborProofs ValueModel Text Hex TypesModel CryptoSpec VoucherModel VoucherSpec VoucherProofs VoucherProofs2 ToyCrypto P_Voucher LibModel LibSpec LibProofs LibProofs2.
From Coq Require Import ZifyBool ZifyNat ZifyN.
Local Open Scope N_scope.
Local Opaque voucher_deserialize voucher_read_many.

(** C91: whatever calls a program made before, in whatever order, each further call gives the right result: a
    pointer to a list or a voucher stands for what was in the data it was made from, the elements of a list
    are its vouchers in order, and the version, the GUID and the device info are those of the voucher. *)
Theorem C91_right_results : forall c chk err_text h l k l' r,
  program c chk err_text h l -> allowed h k -> perform c chk err_text k l = Done l' r -> right c chk err_text h k r.
Proof. intros c chk et h l k l' r P AL E. exact (proj2 (step _ _ _ _ _ _ _ _ (program_inv _ _ _ _ _ P) AL E)). Qed.

(** And for vouchers as the other programs write them, one after the other into one file (C12): they are read as
    a list of that many, and going through it gives the facts of each. *)
Theorem C91_saved_vouchers : forall c chk err_text vs bs h l,
  outputs_ok c -> sign_correct c ->
  Forall2 (fun v b => VoucherSpec.made c chk v /\ fits_memory v /\ tag_small (pa_tag (ov_contents v)) /\ voucher_serialize v = Ok b) vs bs ->
  program c chk err_text h l ->
  (exists l1 p, perform c chk err_text (ManyFromData (Some (concat bs))) l = Done l1 (RPtr p) /\ p <> Null) /\
  forall p, gave h (ManyFromData (Some (concat bs))) p -> ~ LibSpec.made h (ListFree p) ->
    (exists l1, perform c chk err_text (ListLen p) l = Done l1 (RNum (Z.of_nat (length vs)))) /\
    (forall i, N.of_nat (length vs) <= i -> exists l1, perform c chk err_text (ListGet p i) l = Done l1 (RPtr Null)) /\
    (forall i v, nth_error vs (N.to_nat i) = Some v ->
      exists l1 q, perform c chk err_text (ListGet p i) l = Done l1 (RPtr q) /\ q <> Null /\
      exists l2, perform c chk err_text (Version q) l1 = Done l2 (RNum (Z.of_N (hd_version (ov_header v)))) /\
      exists l3 g gt, perform c chk err_text (Guid q) l2 = Done l3 (RPtr g) /\ guid_text (hd_guid (ov_header v)) = Some gt /\
        perform c chk err_text (Read g) l3 = Done l3 (RText gt) /\
      exists l4 d, perform c chk err_text (Info q) l3 = Done l4 (RPtr d) /\ perform c chk err_text (Read d) l4 = Done l4 (RText (hd_devinfo (ov_header v)))).
Proof.
  intros c chk et vs bs h l HO HS HV P. pose proof (C12_many_vouchers c chk vs bs HO HS HV) as RM.
  pose proof (program_inv _ _ _ _ _ P) as IV. split.
  - cbn [perform]. unfold many_from_data. rewrite RM. eexists. eexists. split; [reflexivity|discriminate].
  - intros p G F. assert (ML : my_list h p) by (split; [eexists; exact G|exact F]).
    destruct (i_list _ _ _ _ _ IV _ _ G) as (a & d' & vs' & -> & D & E & H). injection D as <-. assert (vs' = vs) by congruence. subst vs'. specialize (H F).
    split; [|split].
    + eexists. cbn [perform]. unfold list_len. cbn [list_of clear l_heap]. rewrite H. reflexivity.
    + intros i L. eexists. cbn [perform]. unfold list_get. cbn [list_of clear l_heap]. rewrite H.
      rewrite (proj2 (nth_error_None vs (N.to_nat i))) by lia. reflexivity.
    + intros i v NE. destruct (many_texts _ _ _ _ _ _ RM NE) as [[g GT] NN].
      exists (clear l), (Inside a i). split; [|split; [discriminate|]].
      { cbn [perform]. unfold list_get. cbn [list_of clear l_heap]. rewrite H, NE. reflexivity. }
      exists (clear l). split.
      { cbn [perform]. unfold get_version. cbn [voucher_of clear l_heap]. rewrite H, NE. reflexivity. }
      assert (LT : a < l_next l) by (eapply (i_addr _ _ _ _ _ IV); apply G).
      eexists. exists (At (l_next l)), g. split.
      { cbn [perform]. unfold get_guid. cbn [voucher_of clear l_heap]. rewrite H, NE, GT, (guid_no_nul _ _ GT). reflexivity. }
      split; [exact GT|]. split.
      { cbn [perform]. unfold read_text. cbn [text_of l_heap clear l_next]. rewrite N.eqb_refl. reflexivity. }
      eexists. exists (At (l_next l + 1)). split.
      { cbn [perform]. unfold get_info. cbn [voucher_of clear l_heap l_next]. replace (a =? l_next l) with false by lia. rewrite H, NE. cbv zeta. rewrite NN. reflexivity. }
      cbn [perform]. unfold read_text. cbn [text_of l_heap clear l_next]. rewrite N.eqb_refl. reflexivity.
Qed.

(** C92: no call crashes a program that keeps to the rules.  False: asking for the last error when there is none
    ends the process, and so does data that end inside a head. *)
Definition C92_statement : Prop := forall c chk err_text h l k,
  program c chk err_text h l -> allowed h k -> exists l' r, perform c chk err_text k l = Done l' r.
Theorem C92_refuted : ~ C92_statement.
Proof. intros X. destruct (X toy true (fun _ => []) [] fresh_lib LastError (P_start _ _ _) I) as (l' & r & E). discriminate E. Qed.
(** Also right after a call that succeeded, and after a getter that failed. *)
Theorem C92_asking_after_success : forall c chk err_text h l k l' r,
  program c chk err_text h l -> allowed h k -> perform c chk err_text k l = Done l' r -> asks k = false -> reason c chk err_text k = None ->
  perform c chk err_text LastError l' = Aborts.
Proof.
  intros c chk et h l k l' r P AL E A R. pose proof (proj1 (step _ _ _ _ _ _ _ _ (program_inv _ _ _ _ _ P) AL E)) as IV.
  apply (proj2 (ends c chk et _ l' LastError IV I)). right. split; [reflexivity|]. rewrite pending_snoc, A, R. exact I.
Qed.
Theorem C92_one_byte : forall c chk err_text l b, (b / 32 = 4 \/ b / 32 = 6) -> 24 <= b mod 32 < 28 ->
  perform c chk err_text (FromData (Some [b])) l = Aborts /\ perform c chk err_text (ManyFromData (Some [b])) l = Aborts.
Proof.
  intros c chk et l b B1 B2. pose proof (CborProofs.lone_head_panics chk (Some 5) b B1 B2) as LP.
  assert (VR : voucher_read c chk [b] = Panic P_READ_LEN) by (unfold voucher_read; rewrite LP; reflexivity).
  Local Transparent voucher_deserialize voucher_read_many.
  cbn [perform]. unfold from_data, many_from_data, voucher_deserialize, voucher_read_many. cbn [length many_loop]. rewrite VR. split; reflexivity.
  Local Opaque voucher_deserialize voucher_read_many.
Qed.

(** What remains true: a program that keeps to the rules never uses a pointer that is not good, and a call ends
    the process exactly in two cases: the parser panics on the data, or the last error is asked for while there
    is none (or its text has a NUL in it). *)
Theorem C92_no_crash_partial : forall c chk err_text h l k,
  program c chk err_text h l -> allowed h k ->
  perform c chk err_text k l <> Undefined /\
  (perform c chk err_text k l = Aborts <->
    broken_data c chk k \/ k = LastError /\ match pending_error c chk err_text h with Some e => has_nul e = true | None => True end).
Proof. intros c chk et h l k P AL. exact (ends _ _ _ _ _ _ (program_inv _ _ _ _ _ P) AL). Qed.

(** C93: after each failure the documentation describes, the last error can be read.  False for the getters. *)
Definition C93_statement : Prop := forall c chk err_text, (forall e, has_nul (err_text e) = false) ->
  forall h l k r, program c chk err_text (h ++ [(k, r)]) l -> documented_failure k r ->
  exists l' p s, perform c chk err_text LastError l = Done l' (RPtr p) /\ perform c chk err_text (Read p) l' = Done l' (RText s).
Theorem C93_refuted : ~ C93_statement.
Proof.
  intros X. destruct (X toy true (fun _ => []) (fun _ => eq_refl) [] (clear fresh_lib) (Version Null) (RNum (-1))) as (l' & p & s & E & _).
  - apply (P_call _ _ _ [] fresh_lib (Version Null)); [constructor|left; reflexivity|reflexivity].
  - reflexivity.
  - discriminate E.
Qed.
Theorem C93_errors_told_partial : forall c chk err_text, (forall e, has_nul (err_text e) = false) ->
  forall h l k r, program c chk err_text (h ++ [(k, r)]) l -> documented_failure k r ->
  match k with Version _ | Guid _ => False | _ => True end ->
  exists l' p s, perform c chk err_text LastError l = Done l' (RPtr p) /\ perform c chk err_text (Read p) l' = Done l' (RText s) /\
    reason c chk err_text k = Some s.
Proof.
  intros c chk et NT h l k r P DF NG. pose proof (program_inv _ _ _ _ _ P) as IV.
  assert (P0 : exists l0, program c chk et h l0 /\ allowed h k /\ perform c chk et k l0 = Done l r).
  { remember (h ++ [(k, r)]) as hh eqn:EH. destruct P as [|h' l0 k' l' r' P0 AL E]; [destruct h; discriminate EH|]. apply app_inj_tail in EH. destruct EH as [-> EH]. injection EH as -> ->. exists l0. auto. }
  destruct P0 as (l0 & P0 & AL & E).
  assert (RS : exists s, reason c chk et k = Some s /\ has_nul s = false).
  { destruct k as [d|d|p|p i|p|p|p|p|p|p| |p]; try contradiction; cbn [documented_failure] in DF; subst r; cbn [perform] in E.
    - unfold from_data in E. cbn [reason]. destruct d as [d|]; [|eexists; split; [reflexivity|vm_compute; reflexivity]].
      destruct (voucher_deserialize c chk d) as [v|e|w]; [discriminate| |discriminate]. eexists. split; [reflexivity|apply NT].
    - unfold many_from_data in E. cbn [reason]. destruct d as [d|]; [|eexists; split; [reflexivity|vm_compute; reflexivity]].
      destruct (voucher_read_many c chk d) as [v|e|w]; [discriminate| |discriminate]. eexists. split; [reflexivity|apply NT]. }
  destruct RS as (s & RS & NN). pose proof (i_last _ _ _ _ _ IV) as LA. rewrite pending_snoc in LA.
  assert (A : asks k = false) by (destruct k; try contradiction; reflexivity). rewrite A, RS in LA.
  eexists. exists (At (l_next l)), s. cbn [perform]. unfold last_error. rewrite LA, NN. split; [reflexivity|]. split; [|exact RS].
  unfold read_text. cbn [text_of l_heap]. rewrite N.eqb_refl. reflexivity.
Qed.

(** A program: two vouchers in one file, the GUID of the second one and its device info, then everything freed. *)
Definition lb_text : ferr -> str := fun _ => txt "Array parse error: No data to be deserialized".
Definition lb_data : bytes := match voucher_serialize ex_voucher, voucher_serialize ex_extended with Ok a, Ok b => a ++ b | _, _ => [] end.
Definition after (k : call) (l : lib) : lib := match perform toy true lb_text k l with Done l' _ => l' | _ => l end.
Definition lb_calls : list call :=
  [ManyFromData (Some lb_data); ListLen (At 0); ListGet (At 0) 1; Version (Inside 0 1); Guid (Inside 0 1); Info (Inside 0 1); ListFree (At 0);
   Read (At 1); Read (At 2); FreeText (At 1); FromData (Some []); LastError; Read (At 3)].
Fixpoint lb_run (cs : list call) (l : lib) : list reply * lib :=
  match cs with
  | [] => ([], l)
  | k :: cs => match perform toy true lb_text k l with Done l' r => let (rs, l2) := lb_run cs l' in (r :: rs, l2) | _ => ([], l) end
  end.
Local Transparent voucher_deserialize voucher_read_many.
Example C91_case : fst (lb_run lb_calls fresh_lib) =
  [RPtr (At 0); RNum 2; RPtr (Inside 0 1); RNum 101; RPtr (At 1); RPtr (At 2); RVoid; RText (txt "01020304-0506-0708-090a-0b0c0d0e0f10");
   RText (txt "pi"); RVoid; RPtr Null; RPtr (At 3); RText (txt "Array parse error: No data to be deserialized")].
Proof. vm_compute. reflexivity. Qed.
Local Opaque voucher_deserialize voucher_read_many.

(** It keeps to the rules. *)
Lemma run_program : forall cs h l, program toy true lb_text h l ->
  (forall n k, nth_error cs n = Some k -> allowed (h ++ combine (firstn n cs) (fst (lb_run cs l))) k) ->
  (length (fst (lb_run cs l)) = length cs)%nat -> program toy true lb_text (h ++ combine cs (fst (lb_run cs l))) (snd (lb_run cs l)).
Proof.
  induction cs as [|k cs IH]; intros h l P AL LE; cbn [lb_run] in *.
  - cbn [combine fst snd]. rewrite app_nil_r. exact P.
  - pose proof (AL 0%nat k eq_refl) as A0. cbn [firstn combine] in A0. rewrite app_nil_r in A0.
    destruct (perform toy true lb_text k l) as [l' r| |] eqn:E; [|discriminate LE|discriminate LE].
    destruct (lb_run cs l') as [rs l2] eqn:R. cbn [fst snd length combine] in *. rewrite (app_assoc h [(k, r)] (combine cs rs) : h ++ (k, r) :: combine cs rs = _).
    specialize (IH (h ++ [(k, r)]) l'). rewrite R in IH. cbn [fst snd] in IH. apply IH; [eapply P_call; eassumption| |lia].
    intros n k' N. specialize (AL (S n) k' N). cbn [firstn combine] in AL. rewrite <- app_assoc. exact AL.
Qed.
Example C91_keeps_the_rules : exists l, program toy true lb_text (combine lb_calls (fst (lb_run lb_calls fresh_lib))) l.
Proof.
  eexists. apply (run_program lb_calls [] fresh_lib (P_start _ _ _)); rewrite C91_case; [|reflexivity].
  intros n k N. cbn [app].
  assert (NM : forall (h : history) k, forallb (fun x => match fst x, k with ListFree a, ListFree b | FreeText a, FreeText b => false | _, _ => true end) h = true ->
    match k with ListFree _ | FreeText _ => True | _ => False end -> ~ LibSpec.made h k).
  { intros h k0 F K [r X]. rewrite forallb_forall in F. specialize (F _ X). cbn [fst] in F. destruct k0; try contradiction; discriminate F. }
  unfold lb_calls in N.
  destruct n as [|[|[|[|[|[|[|[|[|[|[|[|[|n]]]]]]]]]]]]]; cbn [nth_error] in N; try (injection N as <-; cbn [firstn combine lb_calls allowed]); try exact I.
  - right. split; [eexists; split; [left; reflexivity|discriminate]|]. apply NM; [reflexivity|exact I].
  - right. split; [eexists; split; [left; reflexivity|discriminate]|]. apply NM; [reflexivity|exact I].
  - right. right. exists (At 0), 1. split; [split; [right; right; left; reflexivity|discriminate]|]. split; [eexists; split; [left; reflexivity|discriminate]|]. apply NM; [reflexivity|exact I].
  - right. right. exists (At 0), 1. split; [split; [right; right; left; reflexivity|discriminate]|]. split; [eexists; split; [left; reflexivity|discriminate]|]. apply NM; [reflexivity|exact I].
  - right. right. exists (At 0), 1. split; [split; [right; right; left; reflexivity|discriminate]|]. split; [eexists; split; [left; reflexivity|discriminate]|]. apply NM; [reflexivity|exact I].
  - right. split; [eexists; split; [left; reflexivity|discriminate]|]. apply NM; [reflexivity|exact I].
  - split; [left; exists (Inside 0 1); left; split; [do 4 right; left; reflexivity|discriminate]|]. apply NM; [reflexivity|exact I].
  - split; [left; exists (Inside 0 1); right; split; [do 5 right; left; reflexivity|discriminate]|]. apply NM; [reflexivity|exact I].
  - right. split; [left; exists (Inside 0 1); left; split; [do 4 right; left; reflexivity|discriminate]|]. apply NM; [reflexivity|exact I].
  - split; [right; split; [do 11 right; left; reflexivity|discriminate]|].
    intros [r X]. repeat (destruct X as [X|X]; [discriminate X|]). destruct X.
  - destruct n; discriminate N.
Qed.
Definition lb_file : bytes := match voucher_serialize ex_extended with Ok b => b | _ => [] end.
Example C91_saved_case : Forall2 (fun v b => VoucherSpec.made toy true v /\ fits_memory v /\ tag_small (pa_tag (ov_contents v)) /\ voucher_serialize v = Ok b)
  [ex_extended; ex_extended] [lb_file; lb_file].
Proof.
  assert (X : voucher_serialize ex_extended = Ok lb_file) by (vm_compute; reflexivity). pose proof C12_inhabited as (A & B & C).
  pose proof (conj A (conj B (conj C X))) as Y. exact (Forall2_cons _ _ Y (Forall2_cons _ _ Y (Forall2_nil _))).
Qed.

Print Assumptions C91_right_results.
Print Assumptions C91_saved_vouchers.
Print Assumptions C92_refuted.
Print Assumptions C92_asking_after_success.
Print Assumptions C92_one_byte.
Print Assumptions C92_no_crash_partial.
Print Assumptions C93_refuted.
Print Assumptions C93_errors_told_partial.
