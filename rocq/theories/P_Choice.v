(** C112 and C113: which server a device to be manufactured trusts. *)
From Coq Require Import Lia.
From Verif Require Import Base BaseFacts CborModel ValueModel Text TypesModel VoucherModel CryptoSpec VoucherSpec Assoc KexModel RvModel MsgModel SessionModel
  HttpClientModel RvServerModel SiModel DevSiModel OwnerModel MfgModel ToyCrypto ToySession P_Voucher P_Rv P_Kex P_RvServer P_To0 ClientModel ClientSpec ClientProofs ClientProofs2 ClientToy P_Client.
From Verif Require Import MfgSpec MfgClientModel MfgClientSpec MfgClientProofs MfgClientProofs2 P_Mfg P_MfgClient LocModel LocSpec LocProofs P_Loc DevModel P_Dev ChoiceModel.
Local Open Scope N_scope.

(** * The rule, as documented (HOWTO.md:854-866): root certificates before a hash before none *)
Definition says (v : option evalue) (s : str) : Prop := v = Some (EText s).
Definition silent (v : option evalue) : Prop := forall s, ~ says v s.
Inductive asked (roots : str -> option x5bag) (hash_of : str -> option hash) (va : vars) : vmode -> Prop :=
| as_roots p bag : says (va_roots va) p -> roots p = Some bag -> asked roots hash_of va (VCerts bag)
| as_hash s d : silent (va_roots va) -> says (va_hash va) s -> hash_of s = Some d -> asked roots hash_of va (VHash d)
| as_insecure s : silent (va_roots va) -> silent (va_hash va) -> says (va_insecure va) s -> asked roots hash_of va VInsecure.
Lemma var_says v s : var v = Some s <-> says v s. Proof. unfold var, says. destruct v as [[t|]|]; split; congruence. Qed.
Lemma var_silent v : var v = None <-> silent v.
Proof. unfold var, silent, says. destruct v as [[t|]|]; split; intros; try congruence. destruct (H t eq_refl). Qed.
Lemma get_asked roots hash_of va m : get_from_env roots hash_of va = Some m <-> asked roots hash_of va m.
Proof.
  unfold get_from_env. split.
  - destruct (var (va_roots va)) as [p|] eqn:R.
    + destruct (roots p) as [bag|] eqn:B; [|discriminate]. intros E. injection E as <-. eapply as_roots; [apply var_says; exact R|exact B].
    + apply var_silent in R. destruct (var (va_hash va)) as [s|] eqn:H.
      * destruct (hash_of s) as [d|] eqn:D; [|discriminate]. intros E. injection E as <-. eapply as_hash; [exact R|apply var_says; exact H|exact D].
      * apply var_silent in H. destruct (var (va_insecure va)) as [s|] eqn:I; [|discriminate]. intros E. injection E as <-. eapply as_insecure; [exact R|exact H|apply var_says; exact I].
  - intros [p bag R B|s d R H D|s R H I].
    + apply var_says in R. rewrite R, B. reflexivity.
    + apply var_silent in R. apply var_says in H. rewrite R, H, D. reflexivity.
    + apply var_silent in R. apply var_silent in H. apply var_says in I. rewrite R, H, I. reflexivity.
Qed.
Lemma choose_diun roots hash_of stype_of keys va url su : ~ says (va_plain va) (txt "true") -> choose roots hash_of stype_of keys va = Some (url, su) ->
  says (va_url va) url /\ exists m, su = WithDiun m /\ asked roots hash_of va m.
Proof.
  intros NP. unfold choose. destruct (var (va_url va)) as [u|] eqn:U; [|discriminate]. apply var_says in U.
  assert (X : match get_from_env roots hash_of va with Some m => Some (u, WithDiun m) | None => None end = Some (url, su) -> says (va_url va) url /\ exists m, su = WithDiun m /\ asked roots hash_of va m).
  { destruct (get_from_env roots hash_of va) as [m|] eqn:G; [|discriminate]. intros E. injection E as <- <-. split; [exact U|]. exists m. split; [reflexivity|]. apply get_asked. exact G. }
  destruct (var (va_plain va)) as [v|] eqn:P; [|exact X]. destruct (bytes_eqb v (txt "true")) eqn:T; [|exact X]. apply bytes_eqb_spec in T. subst v. apply var_says in P. destruct (NP P).
Qed.
Lemma first_events A c chk ko avail to_der wo newkey e fs su mi url h x p ev q : initialise A c chk ko avail to_der wo newkey e fs su mi url = (h, x) -> h = p ++ ev :: q ->
  exists h' x' q', mfg_main A c chk ko avail to_der wo newkey (credential e fs) su mi url = (h', x') /\ h' = p ++ ev :: q'.
Proof.
  assert (BS : forall l, exists r, l = before_save l ++ r).
  { induction l as [|a l [r IH]]; [exists []; reflexivity|]. cbn [before_save]. destruct (is_save a); [exists (a :: l); reflexivity|]. exists r. cbn. congruence. }
  unfold initialise. destruct (mfg_main A c chk ko avail to_der wo newkey (credential e fs) su mi url) as [h0 x0]. intros R E.
  destruct (target e); [injection R as -> _; exists h, x0, q; auto|]. destruct (existsb is_save h0); [|injection R as -> _; exists h, x0, q; auto].
  injection R as B _. destruct (BS h0) as [r BR]. rewrite B, E in BR. exists h0, x0, (q ++ r). split; [reflexivity|]. rewrite BR, <- app_assoc. reflexivity.
Qed.

(** Unless plain DI is asked for, whatever the device does after its first message follows the server's proof that it is trusted in the way that was
    asked for; and if no way was, or the one that comes first cannot be read, the device does nothing. *)
Theorem C112_asked : forall roots hash_of stype_of keys A c chk ko avail to_der wo newkey e va fs mi h x p ev q,
  start roots hash_of stype_of keys A c chk ko avail to_der wo newkey e va fs mi = (h, x) -> ~ says (va_plain va) (txt "true") -> h = p ++ ev :: q ->
  exists m, asked roots hash_of va m /\ ((p = [] /\ first_contact ev) \/ exists ks, server_authenticated c chk ko avail wo m p ks /\ confidential A ks ev).
Proof.
  intros roots hash_of stype_of keys A c chk ko avail to_der wo newkey e va fs mi h x p ev q R NP E. unfold start in R.
  destruct (choose roots hash_of stype_of keys va) as [[url su]|] eqn:C; [|injection R as <- _; destruct p; discriminate].
  destruct (choose_diun _ _ _ _ _ _ _ NP C) as (_ & m & -> & AS). exists m. split; [exact AS|].
  destruct (first_events _ _ _ _ _ _ _ _ _ _ _ _ _ _ _ _ _ _ R E) as (h' & x' & q' & M & E'). exact (C60_trusted_server A c chk ko avail to_der wo newkey _ m mi url h' x' p ev q' M E').
Qed.
(** In particular, no server is trusted without proof where root certificates or a hash are named, in the environment or to the kernel, whatever else is. *)
Theorem C112_not_insecure : forall roots hash_of va s, says (va_roots va) s \/ says (va_hash va) s -> ~ asked roots hash_of va VInsecure.
Proof. intros roots hash_of va s S I. inversion I as [| |t R H _]; subst. destruct S as [S|S]; [exact (R s S)|exact (H s S)]. Qed.
Theorem C112_kernel : forall roots hash_of k va m, generate k = Some va -> asked roots hash_of va m ->
  says (va_url va) (ka_url k) /\ ~ says (va_plain va) (txt "true") /\
  ((ka_roots k <> [] /\ exists bag, roots (ka_roots k) = Some bag /\ m = VCerts bag) \/
   (ka_roots k = [] /\ ka_hash k <> [] /\ exists d, hash_of (ka_hash k) = Some d /\ m = VHash d) \/
   (ka_roots k = [] /\ ka_hash k = [] /\ ka_insecure k <> [] /\ m = VInsecure)).
Proof.
  assert (GS : forall s t, says (given s) t -> s = t /\ s <> []) by (intros [|a s] t G; [discriminate G|]; injection G as <-; split; [reflexivity|discriminate]).
  assert (GN : forall s, silent (given s) -> s = []) by (intros [|a s] G; [reflexivity|]; destruct (G (a :: s) eq_refl)).
  intros roots hash_of k va m G AS. unfold generate in G. destruct (ka_url k) as [|u0 ur] eqn:U; [discriminate|]. injection G as <-. split; [reflexivity|]. split; [discriminate|].
  destruct AS as [p bag R B|s d R H D|s R H I]; cbn [va_roots va_hash va_insecure] in *.
  - apply GS in R. destruct R as [<- R]. left. split; [exact R|]. exists bag. auto.
  - apply GS in H. destruct H as [<- H]. right; left. split; [apply GN; exact R|]. split; [exact H|]. exists d. auto.
  - apply GS in I. destruct I as [_ I]. right; right. split; [apply GN; exact R|]. split; [apply GN; exact H|]. auto.
Qed.

(** * C113: the variable for no verification is documented as a boolean *)
Definition C113_statement : Prop := forall roots hash_of stype_of keys A c chk ko avail to_der wo newkey e va fs mi,
  silent (va_plain va) -> silent (va_roots va) -> silent (va_hash va) -> says (va_insecure va) (txt "false") ->
  fst (start roots hash_of stype_of keys A c chk ko avail to_der wo newkey e va fs mi) = [].
(** Any value, the empty one included, switches verification off, if neither of the others is set. *)
Theorem C113_any_value : forall roots hash_of va s, silent (va_roots va) -> silent (va_hash va) -> says (va_insecure va) s -> get_from_env roots hash_of va = Some VInsecure.
Proof. intros roots hash_of va s R H I. apply get_asked. exact (as_insecure _ _ _ s R H I). Qed.
(** It is not switched off if the variable is not set. *)
Theorem C113_unset_partial : forall roots hash_of va, silent (va_insecure va) -> get_from_env roots hash_of va <> Some VInsecure.
Proof. intros roots hash_of va S G. apply get_asked in G. inversion G as [| |s R H I]; subst. exact (S s I). Qed.
Definition ch_false : vars := Vars (Some (EText mcl_url)) None None None (Some (EText (txt "false"))) None.
Lemma ch_some : match fst (start (fun _ => None) (fun _ => None) (fun _ => None) None toy_aead toy true toy_kex true mcl_der (mcl_world false []) mcl_newkey (lm_env None) ch_false [] mcl_info) with [] => false | _ => true end = true.
Proof. vm_compute. reflexivity. Qed.
Theorem C113_refuted : ~ C113_statement.
Proof.
  intros H. pose proof (H (fun _ => None) (fun _ => None) (fun _ => None) None toy_aead toy true toy_kex true mcl_der (mcl_world false []) mcl_newkey (lm_env None) ch_false [] mcl_info
    ltac:(discriminate) ltac:(discriminate) ltac:(discriminate) eq_refl) as X. pose proof ch_some as S. rewrite X in S. discriminate S.
Qed.

(** * The case: a hash is given to the kernel, beside "insecure" *)
Definition ch_args : kargs := KArgs mcl_url (txt "true") (txt "sha384:05") [].
Definition ch_hash (s : str) : option hash := if bytes_eqb s (txt "sha384:05") then Some mcl_root else None.
Example C112_case : exists va, generate ch_args = Some va /\ asked (fun _ => None) ch_hash va (VHash mcl_root) /\
  start (fun _ => None) ch_hash (fun _ => None) None toy_aead toy true toy_kex true mcl_der (mcl_world false []) mcl_newkey (lm_env None) va [] mcl_info = (fst mcl_diun_run, Initialised) /\ fst mcl_diun_run <> [].
Proof.
  eexists. split; [reflexivity|]. split; [apply get_asked; reflexivity|]. split; [|exact ld_some].
  transitivity (initialise toy_aead toy true toy_kex true mcl_der (mcl_world false []) mcl_newkey (lm_env None) [] lm_diun mcl_info mcl_url); [|exact (lm_empty None Logic.I)]. reflexivity.
Qed.
Print Assumptions C112_asked.
Print Assumptions C112_not_insecure.
Print Assumptions C112_kernel.
Print Assumptions C113_any_value.
Print Assumptions C113_unset_partial.
Print Assumptions C113_refuted.
