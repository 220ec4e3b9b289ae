(** The Go package: each call. *)
From Coq Require Import Lia ZifyBool ZifyNat ZifyN.
From Verif Require Import Base BaseFacts ValueModel Text Hex CborModel TypesModel VoucherModel VoucherProofs VoucherProofs2 LibModel LibSpec LibProofs GoModel GoSpec GoProofs.
Local Open Scope N_scope.

Lemma read_version c chk s v : voucher_deserialize c chk s = Ok v -> hd_version (ov_header v) < 65536.
Proof.
  intros D. destruct (voucher_deserialize_ok _ _ _ _ D) as (rest & _ & CO). apply coherent_ok in CO. destruct CO as (_ & (hb & _ & H) & _).
  apply header_deserialize_ok in H. destruct H as (_ & G & _). apply get_ok in G. destruct G as (raw & _ & G). apply from_slice_some in G. destruct G as [y G].
  unfold as_version in G. destruct (as_u16 y) as [z|]; [|discriminate]. destruct (N.eq_dec z 100) as [->|N1]; [injection G as <-; lia|]. destruct (N.eq_dec z 101) as [->|N2]; [injection G as <-; lia|].
  exfalso. revert G. destruct z as [|z]; [discriminate|]. do 7 (destruct z as [z|z|]; try discriminate; try congruence).
Qed.
Lemma many_length {A E} (rd : bytes -> outcome E (A * bytes)) nd : forall fuel s l, many_loop rd nd fuel s = Ok l -> (length l <= fuel)%nat.
Proof.
  induction fuel as [|fuel IH]; intros s l E0; cbn [many_loop] in E0; (destruct (rd s) as [[x s']|e|w]; [|destruct (nd e); [injection E0 as <-; cbn; lia|discriminate]|discriminate]); [discriminate|].
  destruct (many_loop rd nd fuel s') as [r| |] eqn:M; cbn [bind] in E0; try discriminate. injection E0 as <-. apply IH in M. cbn [length]. lia.
Qed.
Lemma many_fit c chk d vs : voucher_read_many c chk d = Ok vs -> nlen d < 2 ^ 63 -> N.of_nat (length vs) <= 2 ^ 63.
Proof. intros E L. unfold voucher_read_many in E. apply many_length in E. unfold nlen in L. lia. Qed.
Local Opaque voucher_deserialize voucher_read_many.

Section Go.
Context (c : crypto) (chk : bool) (et : ferr -> str).
Let GInv := GInv c chk.

Lemma voucher_facts d vs v : voucher_deserialize c chk d = Ok v \/ (voucher_read_many c chk d = Ok vs /\ In v vs) ->
  (exists g, guid_text (hd_guid (ov_header v)) = Some g /\ has_nul g = false) /\ has_nul (hd_devinfo (ov_header v)) = false /\ hd_version (ov_header v) < 65536.
Proof.
  intros X. assert (exists d', voucher_deserialize c chk d' = Ok v) as (d' & D) by (destruct X as [X|[X I]]; [exists d; exact X|exact (many_each _ _ _ _ _ X v I)]).
  destruct (read_texts _ _ _ _ D) as [(g & G) N0]. split; [exists g; split; [exact G|exact (guid_no_nul _ _ G)]|]. split; [exact N0|exact (read_version _ _ _ _ D)].
Qed.
(** A string is read and freed at once. *)
Definition with_text (s : str) (l : lib) : lib := Lib (l_last l) (fun a => if a =? l_next l then Some (OText s) else l_heap l a) (l_next l + 1).
Lemma alloc_text s l : alloc (OText s) l = Done (with_text s l) (RPtr (At (l_next l))). Proof. reflexivity. Qed.
Lemma fdo_string s l f : from_fdo_string c chk et (At (l_next l)) (with_text s l) f = f (release (l_next l) (clear (with_text s l))) s.
Proof.
  unfold from_fdo_string, calls. cbn [perform]. unfold read_text, text_of. cbn [l_heap with_text]. rewrite N.eqb_refl. unfold free_text. cbn [clear l_heap]. cbn [with_text l_heap]. rewrite N.eqb_refl. reflexivity.
Qed.
Lemma text_gone s l a : l_heap l (l_next l) = None -> l_heap (release (l_next l) (clear (with_text s l))) a = l_heap l a.
Proof. intros N0. cbn. destruct (N.eqb_spec a (l_next l)) as [->|_]; [symmetry; exact N0|reflexivity]. Qed.
Lemma next_free h l : GInv h l -> l_heap l (l_next l) = None.
Proof. intros IV. destruct (l_heap l (l_next l)) as [o|] eqn:H; [|reflexivity]. pose proof (n_next _ _ _ _ IV _ _ H). lia. Qed.
(** The error that was set is told. *)
Lemma told_error e l f : get_last_error c chk et (set_error e l) f = if has_nul e then GAborts else f (release (l_next l) (clear (with_text e (set_error e l)))) e.
Proof.
  unfold get_last_error, calls at 1. cbn [perform]. unfold last_error. cbn [set_error l_last]. destruct (has_nul e); [reflexivity|].
  change (Lib (Some e) (l_heap l) (l_next l)) with (set_error e l). rewrite alloc_text. exact (fdo_string e (set_error e l) f).
Qed.

Definition outcome_of (h : ghistory) (k : gcall) (g : go) : Prop :=
  (gcrash c chk et k /\ gperform c chk et k g = GAborts) \/
  (~ gcrash c chk et k /\ exists g' r, gperform c chk et k g = GDone g' r /\ GInv (h ++ [(k, r)]) (g_lib g') /\ gright c chk et h k r).

Lemma none_parse d : frees_none (GParse d). Proof. intros a [| |]; discriminate. Qed.
Lemma none_many d : frees_none (GParseMany d). Proof. intros a [| |]; discriminate. Qed.
Lemma in_last {A} (h : list A) x : In x (h ++ [x]). Proof. apply in_or_app. right. left. reflexivity. Qed.

Lemma not_yet h l k : GInv h l -> (exists f, k = GFree (At (l_next l)) f) \/ k = GListFree (At (l_next l)) -> ~ gmade h k.
Proof. intros IV X [r I]. pose proof (n_below _ _ _ _ IV _ _ I) as B. destruct X as [(f & ->)|X]; [|subst k]; cbn [below] in B; lia. Qed.
(** A new block *)
Lemma fresh_block h l l0 k r o : GInv h l -> l_heap l0 = l_heap l -> l_next l0 = l_next l -> frees_none k -> below l k ->
  let l' := Lib (l_last l0) (fun a => if a =? l_next l0 then Some o else l_heap l0 a) (l_next l0 + 1) in
  owned (h ++ [(k, r)]) (l_next l) o -> backed c chk (h ++ [(k, r)]) l' k r -> GInv (h ++ [(k, r)]) l'.
Proof.
  intros IV EH EN FN BL l' OW BK. apply (grow c chk h l); unfold l'; cbn [l_next l_heap]; try rewrite EH; try rewrite EN.
  - exact IV.
  - lia.
  - intros a o0. destruct (N.eqb_spec a (l_next l)) as [->|_]; [lia|]. intros X. pose proof (n_next _ _ _ _ IV _ _ X). lia.
  - intros a o0. destruct (N.eqb_spec a (l_next l)) as [->|_]; [intros X; injection X as <-; exact OW|]. intros X. apply owned_more; [exact (n_owned _ _ _ _ IV _ _ X)|apply FN].
  - intros a o0 X. left. destruct (N.eqb_spec a (l_next l)) as [->|_]; [rewrite (next_free _ _ IV) in X; discriminate X|exact X].
  - unfold l' in BK. rewrite EH, EN in BK. exact BK.
  - exact BL.
Qed.
Lemma do_parse h g d : GInv h (g_lib g) -> outcome_of h (GParse d) g.
Proof.
  intros IV. unfold outcome_of. cbn [gcrash gperform gright]. unfold go_parse. unfold calls at 1 2. cbn [perform]. unfold from_data. destruct (voucher_deserialize c chk d) as [v|e|w] eqn:D.
  - right. split; [intros []|]. eexists _, _. split; [reflexivity|]. cbn [g_lib]. split.
    + apply (fresh_block h (g_lib g)); [exact IV|reflexivity|reflexivity|apply none_parse|exact I| |].
      * split; [exists d; apply in_last|]. intros [r J]. apply in_app_or in J. destruct J as [J|[J|[]]]; [|discriminate J]. apply (not_yet h (g_lib g) (GFree (At (l_next (g_lib g))) true)); [exact IV|eauto|exists r; exact J].
      * cbn [backed]. exists d, (l_next (g_lib g)), v. split; [reflexivity|]. split; [reflexivity|]. split; [cbn [l_next clear]; lia|]. split; [exact D|]. intros _. cbn [l_heap clear l_next]. rewrite N.eqb_refl. reflexivity.
    + exists (At (l_next (g_lib g))). split; [reflexivity|]. intros k' J. destruct (n_backed _ _ _ _ IV _ _ J) as (? & a & ? & _ & A & L & _). injection A as <-. lia.
  - rewrite told_error. destruct (has_nul (et e)) eqn:HN; [left; split; reflexivity|]. right. split; [discriminate|]. eexists _, _. split; [reflexivity|]. split; [|reflexivity].
    apply (quiet c chk h (g_lib g)); [exact IV|cbn; lia| |apply none_parse|exact I|exact I]. intros a. exact (text_gone (et e) (set_error (et e) (clear (g_lib g))) a (next_free _ _ IV)).
  - left. split; [exact I|reflexivity].
Qed.
Lemma do_many h g d : nlen d < 2 ^ 63 -> GInv h (g_lib g) -> outcome_of h (GParseMany d) g.
Proof.
  intros SM IV. unfold outcome_of. cbn [gcrash gperform gright]. unfold go_parse_many. unfold calls at 1 2. cbn [perform]. unfold many_from_data. destruct (voucher_read_many c chk d) as [v|e|w] eqn:D.
  - right. split; [intros []|]. eexists _, _. split; [reflexivity|]. cbn [g_lib]. split.
    + apply (fresh_block h (g_lib g)); [exact IV|reflexivity|reflexivity|apply none_many|exact SM| |].
      * split; [exists d; apply in_last|]. intros [r J]. apply in_app_or in J. destruct J as [J|[J|[]]]; [|discriminate J]. apply (not_yet h (g_lib g) (GListFree (At (l_next (g_lib g))))); [exact IV|auto|exists r; exact J].
      * cbn [backed]. exists d, (l_next (g_lib g)), v. split; [reflexivity|]. split; [reflexivity|]. split; [cbn [l_next clear]; lia|]. split; [exact D|]. intros _. cbn [l_heap clear l_next]. rewrite N.eqb_refl. reflexivity.
    + exists (At (l_next (g_lib g))). split; [reflexivity|]. intros k' J. destruct (n_backed _ _ _ _ IV _ _ J) as (? & a & ? & _ & A & L & _). injection A as <-. lia.
  - rewrite told_error. destruct (has_nul (et e)) eqn:HN; [left; split; reflexivity|]. right. split; [discriminate|]. eexists _, _. split; [reflexivity|]. split; [|reflexivity].
    apply (quiet c chk h (g_lib g)); [exact IV|cbn; lia| |apply none_many|exact I|exact SM]. intros a. exact (text_gone (et e) (set_error (et e) (clear (g_lib g))) a (next_free _ _ IV)).
  - left. split; [exact I|reflexivity].
Qed.
(** A block is freed. *)
Lemma freed_block h l a o r : GInv h l -> l_heap l a = Some o -> match o with OText _ => False | _ => True end -> match r with GUnit => True | _ => False end ->
  GInv (h ++ [(gfrees a o, r)]) (release a (clear l)).
Proof.
  intros IV H NT R. pose proof (n_next _ _ _ _ IV _ _ H) as LT. apply (grow c chk h l); cbn [release clear l_next l_heap].
  - exact IV.
  - lia.
  - intros b o0. destruct (N.eqb_spec b a); [discriminate|]. intros X. exact (n_next _ _ _ _ IV _ _ X).
  - intros b o0. destruct (N.eqb_spec b a) as [|NE]; [discriminate|]. intros X. apply owned_more; [exact (n_owned _ _ _ _ IV _ _ X)|]. intros E. apply NE. destruct o, o0; cbn [gfrees] in E; congruence.
  - intros b o0 X. destruct (N.eqb_spec b a) as [->|NE]; [right; congruence|left; exact X].
  - destruct r; try contradiction. exact I.
  - destruct o; cbn [gfrees below]; exact LT.
Qed.
Lemma do_list_free h g p : GInv h (g_lib g) -> g_list h p -> outcome_of h (GListFree p) g.
Proof.
  intros IV ML. destruct (live_glist _ _ _ _ _ IV ML) as (a & vs & -> & H & _). right. cbn [gcrash gperform gright]. split; [intros []|]. unfold go_list_free, calls. cbn [perform]. unfold list_free. cbn [clear l_heap]. rewrite H.
  eexists _, _. split; [reflexivity|]. split; [|reflexivity]. exact (freed_block h (g_lib g) a (OList vs) GUnit IV H I I).
Qed.
Lemma do_free h g p f : GInv h (g_lib g) -> g_voucher h p f \/ (exists l i, In (GGet l i, GVoucher p f) h) -> outcome_of h (GFree p f) g.
Proof.
  intros IV ML. right. cbn [gcrash gperform gright]. split; [intros []|]. unfold go_free. destruct ML as [ML|(l & i & J)].
  - destruct ML as [(d & J) NF]. pose proof (n_backed _ _ _ _ IV _ _ J) as B. destruct f; cbn [backed] in B; [|destruct B as (? & ? & ? & ? & X & _); discriminate X].
    destruct B as (d' & a & v & _ & -> & _ & _ & H). specialize (H NF). unfold calls. cbn [perform]. unfold free_voucher. cbn [clear l_heap]. rewrite H. eexists _, _. split; [reflexivity|]. split; [|reflexivity].
    exact (freed_block h (g_lib g) a (OVoucher v) GUnit IV H I I).
  - pose proof (n_backed _ _ _ _ IV _ _ J) as B. destruct f; cbn [backed] in B; [destruct B as (? & ? & ? & X & _); discriminate X|]. destruct B as (a & i' & vs & v & _ & -> & _).
    eexists _, _. split; [reflexivity|]. split; [|reflexivity]. apply (quiet c chk h (g_lib g)); [exact IV|lia|reflexivity|intros b [| |]; discriminate|exact I|exact I].
Qed.
Lemma do_len h g p : GInv h (g_lib g) -> g_list h p -> outcome_of h (GLen p) g.
Proof.
  intros IV ML. destruct (live_glist _ _ _ _ _ IV ML) as (a & vs & -> & H & U). right. cbn [gcrash gperform gright]. split; [intros []|]. unfold go_len, calls. cbn [perform]. unfold list_len, list_of. cbn [clear l_heap]. rewrite H.
  eexists _, _. split; [reflexivity|]. split; [|exists vs; split; [exact U|reflexivity]]. apply (quiet c chk h (g_lib g)); [exact IV|cbn; lia|reflexivity|intros b [| |]; discriminate|exact I|exact I].
Qed.
Lemma do_get h g p i : GInv h (g_lib g) -> g_list h p -> (- 2 ^ 63 <= i < 2 ^ 63)%Z -> outcome_of h (GGet p i) g.
Proof.
  intros IV ML RG. destruct (live_glist _ _ _ _ _ IV ML) as (a & vs & -> & H & U). right. cbn [gcrash gperform]. split; [intros []|]. unfold go_get, calls. cbn [perform]. unfold list_get, list_of. cbn [clear l_heap]. rewrite H.
  assert (FIT : N.of_nat (length vs) <= 2 ^ 63) by (destruct U as [(d & J & E) _]; exact (many_fit _ _ _ _ E (n_below _ _ _ _ IV _ _ J))). assert (FN : frees_none (GGet (At a) i)) by (intros b [| |]; discriminate).
  destruct (Z.leb_spec 0 i) as [I0|I0]; [destruct (Z.ltb_spec i (Z.of_nat (length vs))) as [L|L]|].
  - assert (UI : N.to_nat (uint64 i) = Z.to_nat i) by (unfold uint64; rewrite Z.mod_small by lia; lia). rewrite UI.
    destruct (nth_error vs (Z.to_nat i)) as [v|] eqn:NE; [|apply nth_error_None in NE; lia]. eexists _, _. split; [reflexivity|].
    assert (IV' : GInv (h ++ [(GGet (At a) i, GVoucher (Inside a (uint64 i)) false)]) (clear (g_lib g))).
    { apply (quiet c chk h (g_lib g)); [exact IV|cbn; lia|reflexivity|exact FN| |exact I]. cbn [backed]. exists a, i, vs, v. split; [reflexivity|]. split; [f_equal; lia|]. split; [exact I0|]. split; [apply stands_list_more; exact (proj1 U)|exact NE]. }
    split; [exact IV'|]. cbn [gright]. exists vs. split; [exact U|]. replace ((0 <=? i)%Z && (i <? Z.of_nat (length vs))%Z) with true by lia. exists v, (Inside a (uint64 i)). split; [exact NE|]. split; [reflexivity|].
    destruct (live_gvoucher _ _ _ _ (Inside a (uint64 i)) false IV') as (v' & V' & U' & _).
    { right. exists (At a), i. split; [apply in_last|]. destruct ML as [(d & J) NF]. split; [exists d; apply in_or_app; left; exact J|]. intros [r J']. apply in_app_or in J'. destruct J' as [J'|[J'|[]]]; [apply NF; exists r; exact J'|discriminate J']. }
    cbn [voucher_of clear l_heap] in V'. rewrite H, UI, NE in V'. injection V' as <-. exact U'.
  - assert (UI : N.to_nat (uint64 i) = Z.to_nat i) by (unfold uint64; rewrite Z.mod_small by lia; lia). rewrite UI. assert (nth_error vs (Z.to_nat i) = None) as -> by (apply nth_error_None; lia).
    eexists _, _. split; [reflexivity|]. split; [apply (quiet c chk h (g_lib g)); [exact IV|cbn; lia|reflexivity|exact FN|exact I|exact I]|]. cbn [gright]. exists vs. split; [exact U|]. replace ((0 <=? i)%Z && (i <? Z.of_nat (length vs))%Z) with false by lia. reflexivity.
  - assert (UI : uint64 i = Z.to_N (i + 2 ^ 64)) by (unfold uint64; f_equal; symmetry; apply (Z.mod_unique _ _ (-1)); lia). assert (nth_error vs (N.to_nat (uint64 i)) = None) as -> by (apply nth_error_None; lia).
    eexists _, _. split; [reflexivity|]. split; [apply (quiet c chk h (g_lib g)); [exact IV|cbn; lia|reflexivity|exact FN|exact I|exact I]|]. cbn [gright]. exists vs. split; [exact U|]. replace ((0 <=? i)%Z && (i <? Z.of_nat (length vs))%Z) with false by lia. reflexivity.
Qed.
Lemma do_version h g p f : GInv h (g_lib g) -> g_voucher h p f \/ g_element h p f -> outcome_of h (GVersion p f) g.
Proof.
  intros IV ML. destruct (live_gvoucher _ _ _ _ _ _ IV ML) as (v & V & U & NN & d & vs & W). destruct (voucher_facts _ _ _ W) as (_ & _ & VB). right. cbn [gcrash gperform gright]. split; [intros []|]. unfold go_version, calls. cbn [perform].
  assert (get_version p (g_lib g) = Done (clear (g_lib g)) (RNum (Z.of_N (hd_version (ov_header v))))) as -> by (unfold get_version; change (voucher_of (clear (g_lib g)) p) with (voucher_of (g_lib g) p); rewrite V; destruct p; [congruence|reflexivity|reflexivity]).
  eexists _, _. split; [reflexivity|]. split; [apply (quiet c chk h (g_lib g)); [exact IV|cbn; lia|reflexivity|intros b [| |]; discriminate|exact I|exact I]|]. exists v. split; [exact U|]. f_equal. apply Z.mod_small. lia.
Qed.
Lemma do_guid h g p f : GInv h (g_lib g) -> g_voucher h p f \/ g_element h p f -> outcome_of h (GGuid p f) g.
Proof.
  intros IV ML. destruct (live_gvoucher _ _ _ _ _ _ IV ML) as (v & V & U & NN & d & vs & W). destruct (voucher_facts _ _ _ W) as ((s & G & N0) & _ & _). right. cbn [gcrash gperform gright]. split; [intros []|]. unfold go_text. unfold calls at 1. cbn [perform].
  assert (get_guid p (g_lib g) = alloc (OText s) (clear (g_lib g))) as -> by (unfold get_guid; change (voucher_of (clear (g_lib g)) p) with (voucher_of (g_lib g) p); rewrite V, G, N0; destruct p; [congruence|reflexivity|reflexivity]).
  rewrite alloc_text. rewrite (fdo_string s (clear (g_lib g))). eexists _, _. split; [reflexivity|]. split; [|exists v, s; auto].
  apply (quiet c chk h (g_lib g)); [exact IV|cbn; lia| |intros b [| |]; discriminate|exact I|exact I]. intros a. exact (text_gone s (clear (g_lib g)) a (next_free _ _ IV)).
Qed.
Lemma do_info h g p f : GInv h (g_lib g) -> g_voucher h p f \/ g_element h p f -> outcome_of h (GInfo p f) g.
Proof.
  intros IV ML. destruct (live_gvoucher _ _ _ _ _ _ IV ML) as (v & V & U & NN & d & vs & W). destruct (voucher_facts _ _ _ W) as (_ & N0 & _). right. cbn [gcrash gperform gright]. split; [intros []|]. unfold go_text. unfold calls at 1. cbn [perform].
  assert (get_info p (g_lib g) = alloc (OText (hd_devinfo (ov_header v))) (clear (g_lib g))) as -> by (unfold get_info; change (voucher_of (clear (g_lib g)) p) with (voucher_of (g_lib g) p); rewrite V, N0; destruct p; [congruence|reflexivity|reflexivity]).
  rewrite alloc_text. rewrite (fdo_string _ (clear (g_lib g))). eexists _, _. split; [reflexivity|]. split; [|exists v; auto].
  apply (quiet c chk h (g_lib g)); [exact IV|cbn; lia| |intros b [| |]; discriminate|exact I|exact I]. intros a. exact (text_gone _ (clear (g_lib g)) a (next_free _ _ IV)).
Qed.
Theorem gstep h g k : GInv h (g_lib g) -> gallowed h k -> outcome_of h k g.
Proof.
  intros IV AL. destruct k; cbn [gallowed] in AL; [apply do_parse|apply do_many|apply do_list_free|apply do_len|apply do_get|apply do_free|apply do_version|apply do_guid|apply do_info]; try exact IV; try exact AL; apply AL.
Qed.
Theorem gprogram_inv h g : gprogram c chk et h g -> GInv h (g_lib g).
Proof.
  intros P. induction P as [|h g k g' r P IH AL E]; [apply ginv_start|]. destruct (gstep h g k IH AL) as [[_ X]|[_ (g2 & r2 & X & IV & _)]]; [congruence|]. rewrite E in X. injection X as <- <-. exact IV.
Qed.
End Go.
