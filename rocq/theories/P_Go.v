(** C107 and C108: the Go package for reading ownership vouchers. *)
From Coq Require Import Lia ZifyBool ZifyNat ZifyN.
From Verif Require Import Base BaseFacts ValueModel Text Hex CborModel TypesModel VoucherModel ToyCrypto P_Voucher LibModel LibSpec LibProofs P_Lib GoModel GoSpec GoProofs GoProofs2.
Local Open Scope N_scope.
Local Opaque voucher_deserialize voucher_read_many.

(** C107: whatever calls a program made before, in whatever order, each further call gives the right result. *)
Theorem C107_right : forall c chk err_text h g k g' r,
  gprogram c chk err_text h g -> gallowed h k -> gperform c chk err_text k g = GDone g' r -> gright c chk err_text h k r.
Proof.
  intros c chk et h g k g' r P AL E. destruct (gstep c chk et h g k (gprogram_inv _ _ _ _ _ P) AL) as [[_ X]|[_ (g2 & r2 & X & _ & R)]]; [congruence|]. rewrite E in X. injection X as <- <-. exact R.
Qed.
(** No call has undefined behaviour, and only parsing can end the process, for the reasons given by [gcrash]. *)
Theorem C107_no_crash : forall c chk err_text h g k,
  gprogram c chk err_text h g -> gallowed h k ->
  (gcrash c chk err_text k /\ gperform c chk err_text k g = GAborts) \/
  (~ gcrash c chk err_text k /\ exists g' r, gperform c chk err_text k g = GDone g' r).
Proof.
  intros c chk et h g k P AL. destruct (gstep c chk et h g k (gprogram_inv _ _ _ _ _ P) AL) as [X|[N0 (g2 & r2 & X & _)]]; [left; exact X|right; split; [exact N0|exists g2, r2; exact X]].
Qed.
(** The rule that an element is not used after its list was freed is needed: it does not keep its list alive. *)
Theorem C107_dangling : forall c chk err_text h g l i p f k,
  gprogram c chk err_text h g -> In (GGet l i, GVoucher p f) h -> gmade h (GListFree l) -> k = GVersion p f \/ k = GGuid p f \/ k = GInfo p f ->
  gperform c chk err_text k g = GUndefined.
Proof.
  intros c chk et h g l i p f k P J FR K. pose proof (gprogram_inv _ _ _ _ _ P) as IV. pose proof (n_backed _ _ _ _ IV _ _ J) as B.
  destruct f; cbn [backed] in B; [destruct B as (? & ? & ? & X & _); discriminate X|]. destruct B as (a & i' & vs & v & E & -> & _). injection E as -> <-.
  assert (V : voucher_of (clear (g_lib g)) (Inside a (Z.to_N i)) = None).
  { cbn [voucher_of clear l_heap]. destruct (l_heap (g_lib g) a) as [[|vs'|]|] eqn:H; try reflexivity. destruct (n_owned _ _ _ _ IV _ _ H) as [_ NF]. contradiction. }
  destruct K as [->|[->| ->]]; cbn [gperform]; unfold go_version, go_text, calls; cbn [perform]; unfold get_version, get_guid, get_info; cbv zeta; rewrite V; reflexivity.
Qed.

(** C108: one would like that a program that has freed all it was given holds no more memory of C. *)
Definition C108_statement : Prop := forall c chk err_text h g, gprogram c chk err_text h g -> all_freed h -> (forall a, l_heap (g_lib g) a = None) /\ g_buffers g = [].
(** True of the library's memory: vouchers, lists and strings *)
Theorem C108_library_partial : forall c chk err_text h g, gprogram c chk err_text h g -> all_freed h -> forall a, l_heap (g_lib g) a = None.
Proof.
  intros c chk et h g P (NV & NL) a. pose proof (gprogram_inv _ _ _ _ _ P) as IV. destruct (l_heap (g_lib g) a) as [o|] eqn:H; [|reflexivity]. pose proof (n_owned _ _ _ _ IV _ _ H) as O. destruct o; cbn [owned] in O; [destruct (NV _ _ O)|destruct (NL _ O)|destruct O].
Qed.
(** In general: what the library holds is exactly what the program has been given and has not freed, and no string. *)
Theorem C108_held_partial : forall c chk err_text h g a o, gprogram c chk err_text h g -> l_heap (g_lib g) a = Some o ->
  match o with OVoucher _ => g_voucher h (At a) true | OList _ => g_list h (At a) | OText _ => False end.
Proof. intros c chk et h g a o P H. exact (n_owned _ _ _ _ (gprogram_inv _ _ _ _ _ P) _ _ H). Qed.
(** The copy the package makes of the data is never freed: it holds one for each parsing there was. *)
Lemma buffers c chk et k g g' r : gperform c chk et k g = GDone g' r -> g_buffers g' = g_buffers g ++ parsed [(k, r)].
Proof.
  assert (ST : forall p l b (t : str -> greply), from_fdo_string c chk et p l (fun l s => GDone (Go l b) (t s)) = GDone g' r -> g_buffers g' = b).
  { intros p l b t E. assert (C : forall k l0 f, calls c chk et k l0 f = GDone g' r -> exists l1 r1, f l1 r1 = GDone g' r).
    { intros k0 l0 f. unfold calls. destruct (LibModel.perform c chk et k0 l0); [eauto|discriminate|discriminate]. }
    unfold from_fdo_string in E. destruct p as [|a|a i]; apply C in E; destruct E as (l1 & r1 & E); [injection E as <- _; reflexivity| |];
      (destruct r1; try discriminate; apply C in E; destruct E as (l2 & r2 & E); injection E as <- _; reflexivity). }
  assert (LE : forall l b (t : str -> greply), get_last_error c chk et l (fun l s => GDone (Go l b) (t s)) = GDone g' r -> g_buffers g' = b).
  { intros l b t. unfold get_last_error. unfold calls at 1. destruct (perform _ _ _ _ l) as [l1 [[| |]| | |]| |]; first [apply ST|discriminate|intros X; injection X as <- _; reflexivity]. }
  unfold parsed. cbn [flat_map fst app]. destruct k as [d|d|p|p|p i|p f|p f|p f|p f]; cbn [gperform]; rewrite ?app_nil_r.
  - unfold go_parse, calls at 1. destruct (perform _ _ _ _ _) as [l1 [[| |]| | |]| |]; first [apply (LE l1 _ (fun s => GError (txt "failed to parse: " ++ s)))|discriminate|intros X; injection X as <- _; reflexivity].
  - unfold go_parse_many, calls at 1. destruct (perform _ _ _ _ _) as [l1 [[| |]| | |]| |]; first [apply (LE l1 _ (fun s => GError (txt "failed to parse ownership vouchers: " ++ s)))|discriminate|intros X; injection X as <- _; reflexivity].
  - unfold go_list_free, calls. destruct (perform _ _ _ _ _); try discriminate. intros X; injection X as <- _; reflexivity.
  - unfold go_len, calls. destruct (perform _ _ _ _ _) as [l1 [| | |]| |]; try discriminate. intros X; injection X as <- _; reflexivity.
  - unfold go_get, calls. destruct (perform _ _ _ _ _) as [l1 [[| |]| | |]| |]; try discriminate; intros X; injection X as <- _; reflexivity.
  - unfold go_free, calls. destruct f; [destruct (perform _ _ _ _ _); try discriminate|]; intros X; injection X as <- _; reflexivity.
  - unfold go_version, calls. destruct (perform _ _ _ _ _) as [l1 [| | |]| |]; try discriminate. intros X; injection X as <- _; reflexivity.
  - unfold go_text, calls at 1. destruct (perform _ _ _ _ _) as [l1 [q| | |]| |]; try discriminate. apply (ST q l1 _ GText).
  - unfold go_text, calls at 1. destruct (perform _ _ _ _ _) as [l1 [q| | |]| |]; try discriminate. apply (ST q l1 _ GText).
Qed.
Theorem C108_leak : forall c chk err_text h g, gprogram c chk err_text h g -> g_buffers g = parsed h.
Proof.
  intros c chk et h g P. induction P as [|h g k g' r P IH AL E]; [reflexivity|]. rewrite (buffers _ _ _ _ _ _ _ E), IH. unfold parsed. rewrite flat_map_app. reflexivity.
Qed.

(** * A case: two saved vouchers; the second is looked at, there is no third, the list is freed and then the element; the
    empty input is an error. *)
Definition gx_calls : list gcall :=
  [GParseMany lb_data; GLen (At 0); GGet (At 0) 1; GGet (At 0) 2; GVersion (Inside 0 1) false; GGuid (Inside 0 1) false; GInfo (Inside 0 1) false; GListFree (At 0);
   GFree (Inside 0 1) false; GParse []].
Fixpoint gx_run (cs : list gcall) (g : go) : list greply * go :=
  match cs with
  | [] => ([], g)
  | k :: cs => match gperform toy true lb_text k g with GDone g' r => let (rs, g2) := gx_run cs g' in (r :: rs, g2) | _ => ([], g) end
  end.
Local Transparent voucher_deserialize voucher_read_many.
Example C107_case : fst (gx_run gx_calls fresh_go) =
  [GList (At 0); GNum 2; GVoucher (Inside 0 1) false; GError (txt "no voucher"); GNum 101; GText (txt "01020304-0506-0708-090a-0b0c0d0e0f10"); GText (txt "pi"); GUnit; GUnit;
   GError (txt "failed to parse: Array parse error: No data to be deserialized")].
Proof. vm_compute. reflexivity. Qed.
Example gx_small : nlen lb_data < 2 ^ 63. Proof. vm_compute. reflexivity. Qed.
Local Opaque voucher_deserialize voucher_read_many.
Lemma grun_program : forall cs h g, gprogram toy true lb_text h g ->
  (forall n k, nth_error cs n = Some k -> gallowed (h ++ combine (firstn n cs) (fst (gx_run cs g))) k) ->
  (length (fst (gx_run cs g)) = length cs)%nat -> gprogram toy true lb_text (h ++ combine cs (fst (gx_run cs g))) (snd (gx_run cs g)).
Proof.
  induction cs as [|k cs IH]; intros h l P AL LE; cbn [gx_run] in *.
  - cbn [combine fst snd]. rewrite app_nil_r. exact P.
  - pose proof (AL 0%nat k eq_refl) as A0. cbn [firstn combine] in A0. rewrite app_nil_r in A0.
    destruct (gperform toy true lb_text k l) as [l' r| |] eqn:E; [|discriminate LE|discriminate LE].
    destruct (gx_run cs l') as [rs l2] eqn:R. cbn [fst snd length combine] in *. rewrite (app_assoc h [(k, r)] (combine cs rs) : h ++ (k, r) :: combine cs rs = _).
    specialize (IH (h ++ [(k, r)]) l'). rewrite R in IH. cbn [fst snd] in IH. apply IH; [eapply G_call; eassumption| |lia].
    intros n k' N. specialize (AL (S n) k' N). cbn [firstn combine] in AL. rewrite <- app_assoc. exact AL.
Qed.
Example C107_keeps_the_rules : exists g, gprogram toy true lb_text (combine gx_calls (fst (gx_run gx_calls fresh_go))) g.
Proof.
  eexists. apply (grun_program gx_calls [] fresh_go (G_start _ _ _)); rewrite C107_case; [|reflexivity].
  intros n k N. cbn [app]. unfold gx_calls in N.
  assert (L : forall n, (1 <= n <= 7)%nat -> g_list (combine (firstn n gx_calls) (fst (gx_run gx_calls fresh_go))) (At 0)).
  { rewrite C107_case. intros m M. destruct m as [|[|[|[|[|[|[|[|m]]]]]]]]; try lia; cbn [firstn combine gx_calls]; (split; [exists lb_data; left; reflexivity|]); intros [r X]; repeat (destruct X as [X|X]; [discriminate X|]); destruct X. }
  rewrite C107_case in L.
  destruct n as [|[|[|[|[|[|[|[|[|[|n]]]]]]]]]]; cbn [nth_error] in N; try (injection N as <-; cbn [gallowed]).
  - exact gx_small.
  - apply (L 1%nat). lia.
  - split; [apply (L 2%nat); lia|lia].
  - split; [apply (L 3%nat); lia|lia].
  - right. exists (At 0), 1%Z. split; [right; right; left; reflexivity|apply (L 4%nat); lia].
  - right. exists (At 0), 1%Z. split; [right; right; left; reflexivity|apply (L 5%nat); lia].
  - right. exists (At 0), 1%Z. split; [right; right; left; reflexivity|apply (L 6%nat); lia].
  - apply (L 7%nat). lia.
  - right. exists (At 0), 1%Z. right. right. left. reflexivity.
  - reflexivity.
  - destruct n; discriminate N.
Qed.
(** It has freed all it was given, and yet the data are still in memory. *)
Theorem C108_refuted : ~ C108_statement.
Proof.
  intros H. destruct C107_keeps_the_rules as (g & P). pose proof (C108_leak _ _ _ _ _ P) as LK. destruct (H _ _ _ _ _ P) as [_ B].
  - rewrite C107_case. cbn [combine gx_calls]. split.
    + intros p f [(d & X) _]. repeat (destruct X as [X|X]; [discriminate X|]). destruct X.
    + intros l [(d & X) NF]. apply NF. destruct X as [X|X]; [apply (f_equal snd) in X; cbn [snd] in X; injection X as <-; eexists; do 7 right; left; reflexivity|]. repeat (destruct X as [X|X]; [discriminate X|]). destruct X.
  - rewrite B, C107_case in LK. discriminate LK.
Qed.
Print Assumptions C107_right.
Print Assumptions C107_no_crash.
Print Assumptions C107_dangling.
Print Assumptions C108_library_partial.
Print Assumptions C108_held_partial.
Print Assumptions C108_leak.
Print Assumptions C108_refuted.
