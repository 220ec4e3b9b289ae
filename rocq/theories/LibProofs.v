(** What holds in every state of a C program that keeps to the ownership rules. *)
From Verif Require Import Base BaseFacts ValueModel Text Hex CborModel TypesModel VoucherModel VoucherProofs VoucherProofs2 LibModel LibSpec.
From Coq Require Import ZifyBool ZifyNat ZifyN.
Local Open Scope N_scope.
Lemma from_slice_some {A} (f : cval -> option A) s x : from_slice f s = Ok x -> exists v, f v = Some x.
Proof. unfold from_slice. destruct (dec_top s) as [v|]; [|discriminate]. intros E. exists v. unfold of_option in E. destruct (f v); congruence. Qed.
Lemma bstr16_len v b : as_bstr16 v = Some b -> nlen b = 16.
Proof. unfold as_bstr16. destruct (as_bytebuf v) as [x|]; [|discriminate]. destruct (nlen x =? 16) eqn:L; [|discriminate]. intros E. injection E as <-. lia. Qed.

(** * Texts in vouchers *)
Lemma hex_nonzero b : has_nul (hex_enc b) = false.
Proof.
  unfold has_nul. induction b as [|x b IH]; [reflexivity|]. change (hex_enc (x :: b)) with (hex_digit (x / 16) :: hex_digit (x mod 16) :: hex_enc b).
  cbn [existsb]. rewrite IH. unfold hex_digit. destruct (x / 16 <? 10), (x mod 16 <? 10); lia.
Qed.
Lemma has_nul_app a b : has_nul (a ++ b) = has_nul a || has_nul b.
Proof. apply existsb_app. Qed.
Lemma has_nul_cons x b : has_nul (x :: b) = (x =? 0) || has_nul b.
Proof. reflexivity. Qed.
Lemma guid_no_nul g s : guid_text g = Some s -> has_nul s = false.
Proof.
  intros E. pose proof (guid_text_len _ _ E) as L. destruct (list16 _ L) as (b0 & b1 & b2 & b3 & b4 & b5 & b6 & b7 & b8 & b9 & b10 & b11 & b12 & b13 & b14 & b15 & ->).
  enough (X : match guid_text [b0; b1; b2; b3; b4; b5; b6; b7; b8; b9; b10; b11; b12; b13; b14; b15] with Some s => has_nul s = false | None => True end) by (rewrite E in X; exact X).
  cbv beta iota delta [guid_text]. repeat (rewrite has_nul_app || rewrite has_nul_cons || rewrite hex_nonzero). reflexivity.
Qed.
Lemma read_texts c chk s v : voucher_deserialize c chk s = Ok v ->
  (exists g, guid_text (hd_guid (ov_header v)) = Some g) /\ has_nul (hd_devinfo (ov_header v)) = false.
Proof.
  intros D. destruct (voucher_deserialize_ok _ _ _ _ D) as (rest & _ & CO). apply coherent_ok in CO. destruct CO as (_ & (hb & _ & H) & _).
  apply header_deserialize_ok in H. destruct H as (_ & _ & G & _ & _ & C & _). split.
  - apply guid_text_some. apply get_ok in G. destruct G as (raw & _ & G). apply from_slice_some in G. destruct G as [y G]. eapply bstr16_len. exact G.
  - unfold check_device_info in C. destruct (forallb _ (hd_devinfo (ov_header v))) eqn:F; [|discriminate].
    unfold has_nul. apply Bool.not_true_is_false. intros X. apply existsb_exists in X. destruct X as (ch & I1 & Z).
    rewrite forallb_forall in F. specialize (F ch I1). apply N.eqb_eq in Z. subst ch. discriminate F.
Qed.

Lemma many_each c chk : forall fuel s vs, many_loop (voucher_read c chk) is_nodata_f fuel s = Ok vs -> forall v, In v vs -> exists s', voucher_deserialize c chk s' = Ok v.
Proof.
  induction fuel as [|fuel IH]; intros s vs E v IV; cbn [many_loop] in E.
  - destruct (voucher_read c chk s) as [[x s']|e|w]; [discriminate| |discriminate]. destruct (is_nodata_f e); [|discriminate]. injection E as <-. destruct IV.
  - destruct (voucher_read c chk s) as [[x s']|e|w] eqn:R; [| |discriminate].
    + destruct (many_loop _ _ fuel s') as [l| |] eqn:M; cbn [bind] in E; try discriminate. injection E as <-. destruct IV as [<-|IV]; [|eapply IH; eassumption].
      exists s. unfold voucher_deserialize. rewrite R. reflexivity.
    + destruct (is_nodata_f e); [|discriminate]. injection E as <-. destruct IV.
Qed.
Lemma many_texts c chk s vs n v : voucher_read_many c chk s = Ok vs -> nth_error vs n = Some v ->
  (exists g, guid_text (hd_guid (ov_header v)) = Some g) /\ has_nul (hd_devinfo (ov_header v)) = false.
Proof. intros E NE. destruct (many_each _ _ _ _ _ E v (nth_error_In _ _ NE)) as [s' D]. eapply read_texts. exact D. Qed.

(** * Histories grow *)
Lemma gave_more h x k p : gave h k p -> gave (h ++ [x]) k p.
Proof. intros [A B]. split; [apply in_or_app; left; exact A|exact B]. Qed.
Lemma gave_last h k r k' p : gave (h ++ [(k, r)]) k' p -> gave h k' p \/ (k' = k /\ r = RPtr p /\ p <> Null).
Proof. intros [A B]. apply in_app_or in A. destruct A as [A|[A|[]]]; [left; split; assumption|]. injection A as -> ->. right. auto. Qed.
Lemma gave_new h k p : p <> Null -> gave (h ++ [(k, RPtr p)]) k p.
Proof. intros N. split; [apply in_or_app; right; left; reflexivity|exact N]. Qed.
Lemma made_more h x k : made h k -> made (h ++ [x]) k.
Proof. intros [r A]. exists r. apply in_or_app. left. exact A. Qed.
Lemma made_new h k r : made (h ++ [(k, r)]) k.
Proof. exists r. apply in_or_app. right. left. reflexivity. Qed.
Lemma pending_snoc c chk et h k r : pending_error c chk et (h ++ [(k, r)]) = if asks k then pending_error c chk et h else reason c chk et k.
Proof. unfold pending_error. rewrite fold_left_app. reflexivity. Qed.
Lemma list_more c chk h x p vs : stands_for_list c chk h p vs -> stands_for_list c chk (h ++ [x]) p vs.
Proof. intros (d & G & E). exists d. split; [apply gave_more|]; assumption. Qed.
Lemma split_snoc {A} (h : list A) x h1 y h2 : h ++ [x] = h1 ++ y :: h2 -> (h2 = [] /\ h = h1 /\ x = y) \/ exists h2', h2 = h2' ++ [x] /\ h = h1 ++ y :: h2'.
Proof.
  destruct h2 as [|z h2 _] using rev_ind; intros E.
  - apply app_inj_tail in E. left. intuition congruence.
  - right. exists h2. rewrite app_comm_cons, app_assoc in E. apply app_inj_tail in E. destruct E as [E1 E2]. subst z. auto.
Qed.
Lemma says_last c chk et h k r p s : says c chk et (h ++ [(k, r)]) p s -> says c chk et h p s \/
  (r = RPtr p /\ p <> Null /\ ((exists q v, k = Guid q /\ stands_for c chk h q v /\ guid_text (hd_guid (ov_header v)) = Some s) \/
     (exists q v, k = Info q /\ stands_for c chk h q v /\ s = hd_devinfo (ov_header v)) \/ (k = LastError /\ pending_error c chk et h = Some s))).
Proof.
  intros (h1 & k' & h2 & E & N & C). apply split_snoc in E. destruct E as [(-> & <- & E)|(h2' & -> & ->)].
  - injection E as <- ->. right. auto.
  - left. exists h1, k', h2'. auto.
Qed.
Lemma says_more c chk et h x p s : says c chk et h p s -> says c chk et (h ++ [x]) p s.
Proof. intros (h1 & k' & h2 & -> & N & C). exists h1, k', (h2 ++ [x]). split; [rewrite <- app_assoc; reflexivity|auto]. Qed.

Section Inv.
Context (c : crypto) (chk : bool) (et : ferr -> str).

Record Inv (h : history) (l : lib) : Prop := {
  i_addr : forall k a, In (k, RPtr (At a)) h -> a < l_next l;
  i_voucher : forall d p, gave h (FromData d) p -> exists a d' v, p = At a /\ d = Some d' /\ voucher_deserialize c chk d' = Ok v /\
    (~ made h (Free p) -> l_heap l a = Some (OVoucher v));
  i_list : forall d p, gave h (ManyFromData d) p -> exists a d' vs, p = At a /\ d = Some d' /\ voucher_read_many c chk d' = Ok vs /\
    (~ made h (ListFree p) -> l_heap l a = Some (OList vs));
  i_item : forall q i p, gave h (ListGet q i) p -> exists a vs v, q = At a /\ p = Inside a i /\ stands_for_list c chk h q vs /\ nth_error vs (N.to_nat i) = Some v;
  i_text : forall p s, says c chk et h p s -> ~ made h (FreeText p) -> exists a, p = At a /\ l_heap l a = Some (OText s);
  i_said : forall k p, (exists q, k = Guid q \/ k = Info q) \/ k = LastError -> gave h k p -> exists s, says c chk et h p s;
  i_last : l_last l = pending_error c chk et h
}.

Lemma start_inv : Inv [] fresh_lib.
Proof.
  split; try (intros; match goal with G : gave [] _ _ |- _ => destruct G as [[] _] end); try (intros ? ? []; fail).
  - intros p s (h1 & k & h2 & E & _). destruct h1; discriminate.
  - reflexivity.
Qed.

(** The block of a live object. *)
Lemma live_list h l p : Inv h l -> my_list h p -> exists a vs, p = At a /\ l_heap l a = Some (OList vs) /\ only (stands_for_list c chk h p) vs.
Proof.
  intros IV [[d G] F]. destruct (i_list _ _ IV _ _ G) as (a & d' & vs & -> & -> & E & H). exists a, vs. split; [reflexivity|]. split; [auto|]. split.
  - exists d'. auto.
  - intros vs' (d2 & G2 & E2). destruct (i_list _ _ IV _ _ G2) as (a2 & d2' & vs2 & A & D & E3 & H2). injection A as <-. injection D as <-. specialize (H F). specialize (H2 F). congruence.
Qed.
Lemma live_voucher h l p : Inv h l -> my_voucher h p \/ element h p -> exists v, voucher_of l p = Some v /\ only (stands_for c chk h p) v /\
  (exists g, guid_text (hd_guid (ov_header v)) = Some g) /\ has_nul (hd_devinfo (ov_header v)) = false.
Proof.
  intros IV [[[d G] F]|(q & i & G & ML)].
  - destruct (i_voucher _ _ IV _ _ G) as (a & d' & v & -> & -> & E & H). exists v. cbn [voucher_of]. rewrite (H F). split; [reflexivity|]. split; [|eapply read_texts; exact E]. split.
    + left. exists d'. auto.
    + intros v' [(d2 & G2 & E2)|(q & i & vs & G2 & _)].
      * destruct (i_voucher _ _ IV _ _ G2) as (a2 & d2' & v2 & A & D & E3 & H2). injection A as <-. injection D as <-. specialize (H F). specialize (H2 F). congruence.
      * destruct (i_item _ _ IV _ _ _ G2) as (? & ? & ? & _ & X & _). discriminate X.
  - destruct (i_item _ _ IV _ _ _ G) as (a & vs & v & -> & -> & SL & NE). destruct (live_list _ _ _ IV ML) as (a' & vs' & A & H & SL' & U). injection A as <-.
    pose proof (U _ SL). subst vs'. exists v. cbn [voucher_of]. rewrite H. split; [exact NE|].
    split; [|destruct SL as (d & _ & E); eapply many_texts; eassumption]. split.
    + right. exists (At a), i, vs. auto.
    + intros v' [(d2 & G2 & E2)|(q2 & i2 & vs2 & G2 & S2 & N2)].
      * destruct (i_voucher _ _ IV _ _ G2) as (? & ? & ? & X & _). discriminate X.
      * destruct (i_item _ _ IV _ _ _ G2) as (a2 & ? & ? & -> & X & _). injection X as <- <-. pose proof (U _ S2). subst vs2. congruence.
Qed.
Lemma live_text h l p : Inv h l -> my_text h p -> exists a s, p = At a /\ l_heap l a = Some (OText s) /\ only (says c chk et h p) s.
Proof.
  intros IV [G F]. assert (X : exists s, says c chk et h p s).
  { destruct G as [(q & [G|G])|G]; eapply (i_said _ _ IV); try exact G; eauto. }
  destruct X as [s SY]. destruct (i_text _ _ IV _ _ SY F) as (a & -> & H). exists a, s. split; [reflexivity|]. split; [exact H|]. split; [exact SY|].
  intros s' SY'. destruct (i_text _ _ IV _ _ SY' F) as (a' & A & H'). injection A as <-. congruence.
Qed.

(** What earlier calls gave stays as it is, unless the call frees it. *)
Definition frees (k : call) (a : N) (o : obj) : Prop :=
  match o with OVoucher _ => k = Free (At a) | OList _ => k = ListFree (At a) | OText _ => k = FreeText (At a) end.
Lemma keep h l k r l' : Inv h l -> (forall a o, l_heap l a = Some o -> l_heap l' a = Some o \/ frees k a o) ->
  (forall d p, gave h (FromData d) p -> exists a d' v, p = At a /\ d = Some d' /\ voucher_deserialize c chk d' = Ok v /\
    (~ made (h ++ [(k, r)]) (Free p) -> l_heap l' a = Some (OVoucher v))) /\
  (forall d p, gave h (ManyFromData d) p -> exists a d' vs, p = At a /\ d = Some d' /\ voucher_read_many c chk d' = Ok vs /\
    (~ made (h ++ [(k, r)]) (ListFree p) -> l_heap l' a = Some (OList vs))) /\
  (forall p s, says c chk et h p s -> ~ made (h ++ [(k, r)]) (FreeText p) -> exists a, p = At a /\ l_heap l' a = Some (OText s)).
Proof.
  intros IV K. split; [|split].
  - intros d p G. destruct (i_voucher _ _ IV _ _ G) as (a & d' & v & -> & -> & E & H). exists a, d', v. split; [reflexivity|]. split; [reflexivity|]. split; [exact E|].
    intros F. destruct (K a _ (H (fun m => F (made_more _ _ _ m)))) as [X|X]; [exact X|]. cbn [frees] in X. subst k. destruct F. apply made_new.
  - intros d p G. destruct (i_list _ _ IV _ _ G) as (a & d' & v & -> & -> & E & H). exists a, d', v. split; [reflexivity|]. split; [reflexivity|]. split; [exact E|].
    intros F. destruct (K a _ (H (fun m => F (made_more _ _ _ m)))) as [X|X]; [exact X|]. cbn [frees] in X. subst k. destruct F. apply made_new.
  - intros p s SY F. destruct (i_text _ _ IV _ _ SY (fun m => F (made_more _ _ _ m))) as (a & -> & H). exists a. split; [reflexivity|].
    destruct (K a _ H) as [X|X]; [exact X|]. cbn [frees] in X. subst k. destruct F. apply made_new.
Qed.

(** A call that gives no new block. *)
Lemma step_plain h l k r l' : Inv h l -> (forall a o, l_heap l a = Some o -> l_heap l' a = Some o \/ frees k a o) -> l_next l' = l_next l ->
  l_last l' = pending_error c chk et (h ++ [(k, r)]) -> (forall a, r <> RPtr (At a)) ->
  (forall p, r = RPtr p -> p <> Null -> exists q i a vs v, k = ListGet q i /\ q = At a /\ p = Inside a i /\ stands_for_list c chk h q vs /\ nth_error vs (N.to_nat i) = Some v) ->
  Inv (h ++ [(k, r)]) l'.
Proof.
  intros IV K NX LA NA IT. destruct (keep h l k r l' IV K) as (KV & KL & KT). split.
  - intros k' a X. rewrite NX. apply in_app_or in X. destruct X as [X|[X|[]]]; [eapply i_addr; eassumption|]. injection X as -> ->. destruct (NA a eq_refl).
  - intros d p G. apply gave_last in G. destruct G as [G|(<- & E & N)]; [auto|]. destruct (IT p E N) as (? & ? & ? & ? & ? & X & _). discriminate X.
  - intros d p G. apply gave_last in G. destruct G as [G|(<- & E & N)]; [auto|]. destruct (IT p E N) as (? & ? & ? & ? & ? & X & _). discriminate X.
  - intros q i p G. apply gave_last in G. destruct G as [G|(<- & E & N)].
    + destruct (i_item _ _ IV _ _ _ G) as (a & vs & v & A & B & C & D). exists a, vs, v. split; [exact A|]. split; [exact B|]. split; [apply list_more; exact C|exact D].
    + destruct (IT p E N) as (q' & i' & a & vs & v & X & A & B & C & D). injection X as <- <-. exists a, vs, v. split; [exact A|]. split; [exact B|]. split; [apply list_more; exact C|exact D].
  - intros p s SY F. apply says_last in SY. destruct SY as [SY|(E & N & SY)]; [apply KT; assumption|].
    destruct (IT p E N) as (? & ? & ? & ? & ? & -> & _). destruct SY as [(? & ? & X & _)|[(? & ? & X & _)|(X & _)]]; discriminate X.
  - intros k' p KK G. apply gave_last in G. destruct G as [G|(-> & E & N)].
    + destruct (i_said _ _ IV _ _ KK G) as [s SY]. exists s. apply says_more. exact SY.
    + destruct (IT p E N) as (? & ? & ? & ? & ? & -> & _). destruct KK as [(? & [X|X])|X]; discriminate X.
  - exact LA.
Qed.

(** A call that gives a new block. *)
Lemma step_alloc h l l0 k o l' r : Inv h l -> l_heap l0 = l_heap l -> l_next l0 = l_next l -> alloc o l0 = Done l' r ->
  l_last l0 = pending_error c chk et (h ++ [(k, r)]) ->
  match o with
  | OVoucher v => exists d, k = FromData (Some d) /\ voucher_deserialize c chk d = Ok v
  | OList vs => exists d, k = ManyFromData (Some d) /\ voucher_read_many c chk d = Ok vs
  | OText s =>
    (exists q v, k = Guid q /\ only (stands_for c chk h q) v /\ guid_text (hd_guid (ov_header v)) = Some s) \/
    (exists q v, k = Info q /\ only (stands_for c chk h q) v /\ s = hd_devinfo (ov_header v)) \/
    (k = LastError /\ pending_error c chk et h = Some s)
  end ->
  Inv (h ++ [(k, r)]) l' /\ new_ptr h r.
Proof.
  intros IV HH HN E LA O. unfold alloc in E. rewrite HH, HN in E. injection E as <- <-.
  assert (NW : new_ptr h (RPtr (At (l_next l)))).
  { exists (At (l_next l)). split; [reflexivity|]. split; [discriminate|]. intros k' X. pose proof (i_addr _ _ IV _ _ X). lia. }
  split; [|exact NW]. match goal with |- Inv _ ?x => set (l' := x) end.
  assert (HN' : forall a, a < l_next l -> l_heap l' a = l_heap l a). { intros a L. unfold l'. cbn [l_heap]. replace (a =? l_next l) with false by lia. reflexivity. }
  assert (HS : l_heap l' (l_next l) = Some o). { unfold l'. cbn [l_heap]. rewrite N.eqb_refl. reflexivity. }
  assert (KV : forall d p, gave h (FromData d) p -> exists a d' v, p = At a /\ d = Some d' /\ voucher_deserialize c chk d' = Ok v /\ (~ made h (Free p) -> l_heap l' a = Some (OVoucher v))).
  { intros d p G. destruct (i_voucher _ _ IV _ _ G) as (a & d' & v & A & B & C & D). exists a, d', v. split; [exact A|]. split; [exact B|]. split; [exact C|]. intros F. rewrite HN'; [auto|]. eapply i_addr; [exact IV|]. subst p. apply G. }
  assert (KL : forall d p, gave h (ManyFromData d) p -> exists a d' v, p = At a /\ d = Some d' /\ voucher_read_many c chk d' = Ok v /\ (~ made h (ListFree p) -> l_heap l' a = Some (OList v))).
  { intros d p G. destruct (i_list _ _ IV _ _ G) as (a & d' & v & A & B & C & D). exists a, d', v. split; [exact A|]. split; [exact B|]. split; [exact C|]. intros F. rewrite HN'; [auto|]. eapply i_addr; [exact IV|]. subst p. apply G. }
  split.
  - intros k' a X. unfold l'. cbn [l_next]. apply in_app_or in X. destruct X as [X|[X|[]]]; [pose proof (i_addr _ _ IV _ _ X); lia|]. injection X as <- <-. lia.
  - intros d p G. apply gave_last in G. destruct G as [G|(EK & E & N)].
    + destruct (KV _ _ G) as (a & d' & v & A & B & C & D). exists a, d', v. split; [exact A|]. split; [exact B|]. split; [exact C|]. intros F. apply D. intros m. apply F. apply made_more. exact m.
    + injection E as <-. destruct o as [v|vs|s].
      * destruct O as (d' & -> & D). injection EK as ->. exists (l_next l), d', v. auto.
      * destruct O as (d' & -> & D). discriminate EK.
      * destruct O as [(? & ? & X & _)|[(? & ? & X & _)|(X & _)]]; rewrite X in EK; discriminate EK.
  - intros d p G. apply gave_last in G. destruct G as [G|(EK & E & N)].
    + destruct (KL _ _ G) as (a & d' & v & A & B & C & D). exists a, d', v. split; [exact A|]. split; [exact B|]. split; [exact C|]. intros F. apply D. intros m. apply F. apply made_more. exact m.
    + injection E as <-. destruct o as [v|vs|s].
      * destruct O as (d' & -> & D). discriminate EK.
      * destruct O as (d' & -> & D). injection EK as ->. exists (l_next l), d', vs. auto.
      * destruct O as [(? & ? & X & _)|[(? & ? & X & _)|(X & _)]]; rewrite X in EK; discriminate EK.
  - intros q i p G. apply gave_last in G. destruct G as [G|(EK & E & N)].
    + destruct (i_item _ _ IV _ _ _ G) as (a & vs & v & A & B & C & D). exists a, vs, v. split; [exact A|]. split; [exact B|]. split; [apply list_more; exact C|exact D].
    + destruct o as [v|vs|s]; [destruct O as (? & X & _)|destruct O as (? & X & _)|destruct O as [(? & ? & X & _)|[(? & ? & X & _)|(X & _)]]]; rewrite X in EK; discriminate EK.
  - intros p s SY F. apply says_last in SY. destruct SY as [SY|(E & N & SY)].
    + destruct (i_text _ _ IV _ _ SY (fun m => F (made_more _ _ _ m))) as (a & -> & H). exists a. split; [reflexivity|]. rewrite HN'; [exact H|]. destruct SY as (h1 & k' & h2 & -> & _). eapply (i_addr _ _ IV k'). apply in_or_app. right. left. reflexivity.
    + injection E as <-. exists (l_next l). split; [reflexivity|]. rewrite HS. f_equal. destruct o as [v|vs|s'].
      * destruct O as (? & -> & _). destruct SY as [(? & ? & X & _)|[(? & ? & X & _)|(X & _)]]; discriminate X.
      * destruct O as (? & -> & _). destruct SY as [(? & ? & X & _)|[(? & ? & X & _)|(X & _)]]; discriminate X.
      * f_equal. destruct O as [(q & v & -> & [SF U] & T)|[(q & v & -> & [SF U] & T)|(-> & T)]], SY as [(q2 & v2 & X & SF2 & T2)|[(q2 & v2 & X & SF2 & T2)|(X & T2)]]; try discriminate X.
        -- injection X as <-. pose proof (U _ SF2). subst v2. congruence.
        -- injection X as <-. pose proof (U _ SF2). subst v2. congruence.
        -- congruence.
  - intros k' p KK G. apply gave_last in G. destruct G as [G|(-> & E & N)].
    + destruct (i_said _ _ IV _ _ KK G) as [s SY]. exists s. apply says_more. exact SY.
    + injection E as <-. destruct o as [v|vs|s]; [destruct O as (? & -> & _); destruct KK as [(? & [X|X])|X]; discriminate X|destruct O as (? & -> & _); destruct KK as [(? & [X|X])|X]; discriminate X|].
      exists s, h, k, []. split; [reflexivity|]. split; [discriminate|].
      destruct O as [(q & v & -> & [SF U] & T)|[(q & v & -> & [SF U] & T)|(-> & T)]]; eauto 10.
  - exact LA.
Qed.
End Inv.
