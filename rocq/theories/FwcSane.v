(** Every file writer that messages, commands and frames lead to. *)
From Coq Require Import String Ascii.
From Verif Require Import Base JsonModel JsonProofs FrameModel PrcModel PrcReply PrcSet CfgModel PlaceModel NameModel AcqModel FwModel FwSpec FwProofs JsonSpec CfgSpec CfgProofs FwcModel FwcSpec FwcProofs FwcRefine.
Local Open Scope string_scope.
Local Open Scope list_scope.
Local Open Scope Z_scope.

(** ** As calls of FwModel *)
Lemma is_configure_ok P Q c : is_configure c -> op_ok P Q c. Proof. destruct c; cbn; tauto. Qed.
Lemma lived_run P Q n act dk s : lived P Q n act dk s -> exists l rs, Forall (op_ok P Q) l /\ fw_run (fw_init act dk) l = (x_fw s, rs) /\ ~ In Undef rs.
Proof.
  induction 1 as [|s look now m r s1 r1 o L (l & rs & F & R & N) H NU|s i c r s1 r1 o L (l & rs & F & R & N) PI H NU|s L IH|s c w o file timing woken L (l & rs & F & R & N) NC OK H NU].
  - exists [], []. repeat split; [constructor|intros []].
  - destruct (configure_refines _ _ _ _ _ _ _ _ H NU) as ((l' & rs' & F' & R' & N') & _). exists (l ++ l'), (rs ++ rs'). split; [|split; [exact (runs_app _ _ _ _ _ _ _ R N R')|intros I; apply in_app_or in I as [I|I]; contradiction]].
    apply Forall_app. split; [exact F|]. eapply Forall_impl; [|exact F']. intros c. apply is_configure_ok.
  - assert (exists cmd u, fw_execute i cmd (x_fw s) = (x_fw s1, u) /\ u <> Undef) as (cmd & u & E & NU').
    { unfold fwx_execute in H. assert (B : forall cmd k s1 r1 o, base k (fw_execute i cmd) s r = (s1, r1, o) -> o <> Undef -> exists cmd u, fw_execute i cmd (x_fw s) = (x_fw s1, u) /\ u <> Undef).
      { clear. intros cmd k s1 r1 o H NU. unfold base in H. destruct (fw_execute i cmd (x_fw s)) as (w & u) eqn:E. injection H as <- <- <-. exists cmd, u. rewrite E. split; [reflexivity|]. intros ->. congruence. }
      destruct (String.eqb c "start_writing"); [exact (B _ _ _ _ _ H NU)|]. destruct (String.eqb c "stop_writing"); [exact (B _ _ _ _ _ H NU)|].
      unfold cseq in H. cbn in H. unfold cnack in H. destruct (set_nack r _) as (m & o'). injection H as <- <- <-. exists CmdOther, (Ret tt). split; [reflexivity|discriminate]. }
    exists (l ++ [OExecute i cmd]), (rs ++ [u]). split; [apply Forall_app; split; [exact F|repeat constructor; exact PI]|]. split.
    + apply (runs_app _ _ _ _ _ _ _ R N). cbn [fw_run fw_call]. rewrite E. destruct u; congruence.
    + intros I. apply in_app_or in I as [I|[I|[]]]; congruence.
  - exact IH.
  - exists (l ++ [c]), (rs ++ [o]). split; [apply Forall_app; split; [exact F|repeat constructor; exact OK]|]. split.
    + apply (runs_app _ _ _ _ _ _ _ R N). cbn [fw_run x_fw]. rewrite H. destruct o; congruence.
    + intros I. apply in_app_or in I as [I|[I|[]]]; congruence.
Qed.

(** ** Ranges *)
(** The part kept in FwModel's state *)
Definition geom_sane (g : geom) : Prop := size (g_procs g) /\ size (g_rank g) /\ size (g_fpb g) /\ size (g_bpf g) /\ g_fpb g <> 0%N.
Definition next_sane (p : prep) : Prop := no_nul (p_path p) /\ no_nul (p_file p) /\ no_nul (p_id p) /\ size (p_total p).
Definition names_sane (w : fw) : Prop := no_nul (w_postfix w) /\ no_nul (w_ext w) /\ (w_start w < 2 ^ 32)%N /\ no_nul (w_master w) /\ size (w_period w).
Definition def_sane (d : dsdef) : Prop := no_nul (d_name d) /\ Forall size (d_dims d) /\ Forall size (d_chunks d).
Definition defs_sane (l : list dsdef) : Prop := defs_ok l /\ forall d, In d l -> def_sane d.
Definition sane_w (w : fw) : Prop := geom_sane (w_geom w) /\ next_sane (w_next w) /\ names_sane w /\ defs_sane (w_defs w).
Definition sane_x (s : fwx) : Prop := (uint64 (x_threshold s) /\ uint64 (x_value s)) /\ (uint32 (x_create s) /\ uint32 (x_write s) /\ uint32 (x_flush s) /\ uint32 (x_close s)) /\ forall n, let '(a, b, c) := x_blosc s n in uint32 a /\ uint32 b /\ uint32 c.
Definition inv (s : fwx) : Prop := sane_w (x_fw s) /\ sane_x s.
Lemma inv_sane s : inv s -> sane s.
Proof. intros ((G & P & N & D1 & D2) & A & E & B). split; [destruct G; intuition|apply G|exact A|exact P|exact N|exact E|apply defs_nodup, D1|exact D2|exact B]. Qed.
Definition sanely {A} (a : X A) : Prop := forall s r, inv s -> inv (fst (fst (a s r))).
Lemma sn_seq {A B} (a : X A) (f : A -> X B) : sanely a -> (forall x, sanely (f x)) -> sanely (cseq a f).
Proof. intros HA HF s r S. unfold cseq. specialize (HA s r S). destruct (a s r) as ((s1 & r1) & [x|e|]); [apply HF, HA|exact HA|exact HA]. Qed.
Lemma sn_ret {A} (a : A) : sanely (cret a). Proof. intros s r S. exact S. Qed.
Lemma sn_throw {A} e : sanely (@cthrow fwx A e). Proof. intros s r S. exact S. Qed.
Lemma sn_lift {A} (o : outcome ipcexc A) : sanely (clift o). Proof. intros s r S. exact S. Qed.
Lemma sn_get : sanely cget. Proof. intros s r S. exact S. Qed.
Lemma sn_nack w : sanely (cnack w). Proof. intros s r S. unfold cnack. destruct (set_nack r w). exact S. Qed.
Definition gets {A} (get : msg -> string -> outcome ipcexc A) (P : A -> Prop) : Prop := forall m n a, get m n = Ret a -> P a.
Lemma sn_setting {A} m k (get : msg -> string -> outcome ipcexc A) P f : gets get P -> (forall a, P a -> sanely (f a)) -> sanely (setting m k get f).
Proof.
  intros G H s r S. unfold setting, cseq, clift. destruct (has_param m k) as [[]|e|]; try exact S. destruct (get m k) as [a|e|] eqn:E; try exact S. exact (H a (G _ _ _ E) s r S).
Qed.
Lemma sn_local {A B} m k (get : msg -> string -> outcome ipcexc A) P (f : option A -> X B) : gets get P -> (forall o, (forall a, o = Some a -> P a) -> sanely (f o)) -> sanely (cseq (local m k get) f).
Proof.
  intros G H s r S. unfold local, cseq, clift, cret. destruct (has_param m k) as [[]|e|]; try exact S; [|apply H; [discriminate|exact S]]. destruct (get m k) as [a|e|] eqn:E; try exact S. apply H; [|exact S]. intros b [= <-]. exact (G _ _ _ E).
Qed.
Lemma gets_any {A} (get : msg -> string -> outcome ipcexc A) : gets get (fun _ => True). Proof. intros m n a _. exact Logic.I. Qed.
Lemma in_range_in lo hi z r : in_range lo hi z = Ret r -> r = RInt z /\ lo <= z < hi.
Proof. unfold in_range. destruct (Z.leb_spec lo z), (Z.ltb_spec z hi); cbn; intros E; try discriminate. injection E as <-. split; [reflexivity|lia]. Qed.
Lemma cstr_no_nul s : no_nul (cstr s).
Proof. unfold no_nul. induction s as [|c s IH]; cbn; [tauto|]. destruct (Ascii.eqb_spec c zero) as [->|N]; cbn; [tauto|]. intros [E|E]; [congruence|tauto]. Qed.
Lemma gets_u64 : gets u64 uint64.
Proof.
  intros m n a. unfold u64, get_param. destruct (get_raw m n) as [v|e|]; [|discriminate|discriminate]. destruct v; try discriminate. cbn [get_value]. destruct (in_range 0 (2 ^ 64) z) as [r|e|] eqn:E; [|discriminate|discriminate]. apply in_range_in in E as (-> & E). cbn. intros [= <-]. exact E.
Qed.
Lemma gets_uint : gets uint uint32.
Proof.
  intros m n a. unfold uint, get_param. destruct (get_raw m n) as [v|e|]; [|discriminate|discriminate]. destruct v; try discriminate. cbn [get_value]. destruct (in_range 0 (2 ^ 32) z) as [r|e|] eqn:E; [|discriminate|discriminate]. apply in_range_in in E as (-> & E). cbn. intros [= <-]. exact E.
Qed.
Lemma gets_text : gets text no_nul.
Proof. intros m n a. unfold text, get_param. destruct (get_raw m n) as [v|e|]; [|discriminate|discriminate]. destruct v; try discriminate. cbn. intros [= <-]. apply cstr_no_nul. Qed.
Lemma u64s_in l a : u64s l = Ret a -> Forall uint64 a.
Proof.
  revert a. induction l as [|x l IH]; intros a; cbn [u64s]; [intros [= <-]; constructor|]. destruct x; try discriminate. cbn [get_value]. destruct (in_range 0 (2 ^ 64) z) as [r|e|] eqn:E; [|discriminate|discriminate]. apply in_range_in in E as (-> & E). cbn [bind]. destruct (u64s l) as [y|e|]; [|discriminate|discriminate]. cbn. intros [= <-]. constructor; [exact E|apply IH; reflexivity].
Qed.
Lemma gets_array : gets u64_array (Forall uint64).
Proof. intros m n a. unfold u64_array. destruct (get_ref m n) as [v|e|]; [|discriminate|discriminate]. cbn [bind]. destruct v; try discriminate. apply u64s_in. Qed.
Lemma size_of z : uint64 z -> size (Z.to_N z). Proof. unfold uint64, size. intros H. apply N2Z.inj_lt. rewrite Z2N.id by lia. exact (proj2 H). Qed.
Lemma sizes_of l : Forall uint64 l -> Forall size (map Z.to_N l). Proof. intros H. apply Forall_map. eapply Forall_impl; [|exact H]. exact size_of. Qed.


(** ** Each step *)
Definition fsane {A} (a : FM A) : Prop := forall w, sane_w w -> sane_w (fst (a w)).
Lemma fs_bind {A B} (a : FM A) (f : A -> FM B) : fsane a -> (forall x, fsane (f x)) -> fsane (fbind a f).
Proof. intros HA HF w S. unfold fbind. specialize (HA w S). destruct (a w) as (w1 & [x|e|]); [apply HF, HA|exact HA|exact HA]. Qed.
Lemma fs_ret {A} (a : A) : fsane (fret a). Proof. intros w S. exact S. Qed.
Lemma fs_get : fsane fget. Proof. intros w S. exact S. Qed.
Lemma fs_throw {A} e : fsane (@fthrow A e). Proof. intros w S. exact S. Qed.
Lemma fs_lift {A} (o : outcome Empty_set A) : fsane (flift o). Proof. intros w S. destruct o as [a|[]|]; exact S. Qed.
Lemma fs_put g : (forall w, sane_w w -> sane_w (g w)) -> fsane (fput g). Proof. intros H w S. apply H, S. Qed.
Lemma fs_say o : fsane (fput (say o)). Proof. apply fs_put. intros w S. exact S. Qed.
Lemma sn_base t a : fsane a -> sanely (base t a).
Proof. intros H s r (W & X). unfold base. specialize (H _ W). destruct (a (x_fw s)) as (w & o). split; [exact H|exact X]. Qed.
Lemma fs_change old new bad g : (bad = false -> forall w, sane_w w -> sane_w (set_geom g w)) -> fsane (change old new bad g).
Proof. intros H. unfold change. destruct (old =? new)%N; [apply fs_ret|]. destruct bad; [apply fs_bind; [apply fs_say|intros _; apply fs_throw]|]. apply fs_bind; [apply fs_get|]. intros w. destruct (w_writing w); [apply fs_bind; [apply fs_say|intros _; apply fs_throw]|apply fs_put, H; reflexivity]. Qed.
(** What a file writer's state contains is as wide as said. *)
Lemma sn_seen {A} (f : fw -> FM A) : (forall w, sane_w w -> fsane (f w)) -> fsane (fbind fget f).
Proof. intros H w S. unfold fbind, fget. exact (H w S w S). Qed.
Ltac sw := match goal with G : geom_sane _, P : next_sane _, M : names_sane _, F : defs_sane _ |- _ => split; [first [exact G|unfold geom_sane; cbn]|split; [first [exact P|unfold next_sane; cbn]|split; [first [exact M|unfold names_sane; cbn]|first [exact F|cbn]]]] end;
  repeat match goal with G : geom_sane _ |- _ => destruct G as (? & ? & ? & ? & ?) | P : next_sane _ |- _ => destruct P as (? & ? & ? & ?) | M : names_sane _ |- _ => destruct M as (? & ? & ? & ? & ?) end; auto 8.
Lemma fs_process p : (forall n, pc_procs p = Val n -> size n) -> (forall n, pc_rank p = Val n -> size n) -> (forall n, pc_fpb p = Val n -> size n) -> (forall n, pc_bpf p = Val n -> size n) -> fsane (configure_process p).
Proof.
  intros A B C D. unfold configure_process. repeat (apply fs_bind; [|intros _]).
  all: match goal with |- fsane (on_field ?x _) => destruct x as [| |n] eqn:E; cbn [on_field]; [apply fs_ret|apply fs_throw|] end.
  all: apply sn_seen; intros w ((G1 & G2 & G3 & G4 & G5) & _); cbv zeta; apply fs_change; intros BAD w' (_ & P); (split; [|exact P]); cbn; unfold geom_sane; cbn; repeat (split; [auto; fail|]); auto.
  repeat (split; [auto; fail|]). apply N.ltb_ge in BAD. lia.
Qed.
Lemma fs_only path file numbers start postfix ext : (forall x, path = Val x -> no_nul x) -> (forall x, file = Val x -> no_nul x) -> (forall x, start = Val x -> (x < 2 ^ 32)%N) -> (forall x, postfix = Val x -> no_nul x) -> (forall x, ext = Val x -> no_nul x) -> fsane (only path file numbers start postfix ext).
Proof.
  intros A B C D E. unfold only, configure_file. cbn [fc_path fc_file fc_numbers fc_start fc_postfix fc_ext]. repeat (apply fs_bind; [|intros _]).
  all: match goal with |- fsane (on_field ?x _) => destruct x as [| |n]; cbn [on_field]; [apply fs_ret|apply fs_throw|apply fs_put] end.
  all: intros w (G & P & M & F); sw.
Qed.
Lemma defs_put d l : defs_sane l -> def_sane d -> defs_sane (put_def d l).
Proof. intros (A & B) D. split; [apply put_def_ok, A|]. intros e I. apply put_def_In in I as [->|I]; auto. Qed.
Lemma fs_new n : no_nul n -> fsane (create_new_dataset n).
Proof. intros N. apply fs_put. intros w S. destruct (find_def (w_defs w) n); [exact S|]. destruct S as (G & P & M & D). sw. apply defs_put; [exact D|]. repeat split; cbn; auto. Qed.
Lemma find_def_In l n d : find_def l n = Some d -> In d l. Proof. Transparent find_def. induction l as [|x t IH]; cbn; [discriminate|]. destruct (String.eqb (d_name x) n); [intros [= <-]; auto|auto]. Qed.
Lemma fs_dataset n c : no_nul n -> (forall l, dc_dims c = Val l -> Forall size l) -> (forall l, dc_chunks c = Val l -> Forall size l) -> fsane (configure_dataset n c).
Proof.
  intros N A B. unfold configure_dataset. apply sn_seen. intros w (_ & _ & _ & _ & D). cbv zeta.
  assert (DS : def_sane (match find_def (w_defs w) n with Some d => d | None => DsDef n TUnknown CUnknown [] [] false end)).
  { destruct (find_def (w_defs w) n) eqn:F; [exact (D _ (find_def_In _ _ _ F))|]. repeat split; cbn; auto. }
  revert DS. generalize (match find_def (w_defs w) n with Some d => d | None => DsDef n TUnknown CUnknown [] [] false end). intros d (D1 & D2 & D3).
  destruct c as [t dims chunks comp lh]. cbn [dc_type dc_dims dc_chunks dc_comp dc_lowhigh] in *.
  assert (V : forall T B (x : field T) old (f : T -> FM B) (P : T -> Prop), (forall a, x = Val a -> P a) -> P old -> (forall a, P a -> fsane (f a)) -> fsane (fbind (fval x old) f)).
  { intros T B0 x old f P X O H. destruct x as [| |a]; intros w' S; unfold fbind, fval, fret, fthrow; [apply H; auto|exact S|apply H; auto]. }
  apply (V _ _ _ _ _ (fun _ => True)); auto. intros t' _. apply (V _ _ _ _ _ (Forall size)); [exact A|exact D2|]. intros dims' DD. apply (V _ _ _ _ _ (Forall size)); [exact B| |].
  { destruct dims; auto. constructor; [unfold size; lia|exact DD]. }
  intros chunks' CC. apply (V _ _ _ _ _ (fun _ => True)); auto. intros c' _. apply (V _ _ _ _ _ (fun _ => True)); auto. intros lh' _.
  apply fs_put. intros w' (G & P & M & DD'). sw. apply defs_put; [exact DD'|]. repeat split; cbn; auto.
Qed.
Lemma fs_rest frames master id period : (forall x, frames = Val x -> size x) -> (forall x, master = Val x -> no_nul x) -> (forall x, id = Val x -> no_nul x) -> (forall x, period = Val x -> size x) -> fsane (FwModel.configure_body (fun _ => true) (config_only frames master id period)).
Proof.
  intros A B C D. unfold FwModel.configure_body, config_only. cbn [k_process k_file k_dataset k_delete k_frames k_master k_id k_period]. do 4 (apply fs_bind; [apply fs_ret|intros _]). repeat (apply fs_bind; [|intros _]).
  all: match goal with |- fsane (on_field ?x _) => destruct x as [| |n]; cbn [on_field]; [apply fs_ret|apply fs_throw|] end.
  - apply fs_bind; [|intros _; apply fs_bind; [apply fs_get|]; intros w; apply fs_bind; [apply fs_lift|]; intros k].
    all: apply fs_put; intros w' (G & P & M & F); sw.
  - apply fs_put; intros w' (G & P & M & F); sw.
  - apply fs_put; intros w' (G & P & M & F); sw.
  - apply fs_put; intros w' (G & P & M & F); sw.
Qed.
Lemma sn_set f : (forall s, inv s -> inv (f s)) -> sanely (cset f). Proof. intros H s r S. apply H, S. Qed.
Lemma u32_in z : (u32 z < 2 ^ 32)%N. Proof. unfold u32. pose proof (Z.mod_pos_bound z (2 ^ 32) ltac:(lia)). apply N2Z.inj_lt. rewrite Z2N.id by lia. exact (proj2 H). Qed.
Ltac vals := intros ? VE; first [discriminate VE|injection VE as <-; auto using size_of, u32_in].
Lemma sane_process m : sanely (process_section m).
Proof.
  unfold process_section. repeat (apply sn_seq; [|intros _]).
  1, 2, 3, 4: apply (sn_setting _ _ _ uint64 _ gets_u64); intros n I; apply sn_base, fs_process; cbn; vals.
  - apply (sn_setting _ _ _ _ _ (gets_any _)). intros b _. apply sn_set. intros s S. exact S.
  - apply (sn_setting _ _ _ uint64 _ gets_u64); intros n I. apply sn_set. intros s (W & (T & V) & X). split; [exact W|]. split; [split; [exact I|exact V]|exact X].
  - apply (sn_setting _ _ _ uint64 _ gets_u64); intros n I. apply sn_set. intros s (W & (T & V) & X). split; [exact W|]. split; [split; [exact T|exact I]|exact X].
Qed.
Lemma sane_file look m : sanely (file_section look m).
Proof.
  unfold file_section. repeat (apply sn_seq; [|intros _]).
  - apply (sn_setting _ _ _ _ _ gets_text). intros p I. destruct (look p); [|apply sn_nack..]. apply sn_base, fs_only; vals.
  - apply (sn_setting _ _ _ _ _ gets_text). intros p I. apply sn_base, fs_only; vals.
  - apply (sn_setting _ _ _ _ _ (gets_any _)). intros p I. apply sn_base, fs_only; vals.
  - apply (sn_setting _ _ _ _ _ (gets_any _)). intros p I. apply sn_base, fs_only; vals.
  - apply (sn_setting _ _ _ _ _ gets_text). intros p I. apply sn_base, fs_only; vals.
  - apply (sn_setting _ _ _ _ _ gets_text). intros p I. apply sn_base, fs_only; vals.
  - apply (sn_setting _ _ _ _ _ gets_uint). intros p I. apply sn_set. intros s (W & A & (E1 & E2 & E3 & E4) & B). split; [exact W|]. split; [exact A|]. split; [cbn; auto|exact B].
  - apply (sn_setting _ _ _ _ _ gets_uint). intros p I. apply sn_set. intros s (W & A & (E1 & E2 & E3 & E4) & B). split; [exact W|]. split; [exact A|]. split; [cbn; auto|exact B].
  - apply (sn_setting _ _ _ _ _ gets_uint). intros p I. apply sn_set. intros s (W & A & (E1 & E2 & E3 & E4) & B). split; [exact W|]. split; [exact A|]. split; [cbn; auto|exact B].
  - apply (sn_setting _ _ _ _ _ gets_uint). intros p I. apply sn_set. intros s (W & A & (E1 & E2 & E3 & E4) & B). split; [exact W|]. split; [exact A|]. split; [cbn; auto|exact B].
Qed.
Lemma some_val {T U} (f : T -> U) (P : T -> Prop) (Q : U -> Prop) o : (forall a, o = Some a -> P a) -> (forall a, P a -> Q (f a)) -> forall x, as_field f o = Val x -> Q x.
Proof. intros H I x. destruct o as [a|]; [|discriminate]. intros [= <-]. apply I, H. reflexivity. Qed.
Lemma or_in {T} (P : T -> Prop) o d : (forall a, o = Some a -> P a) -> P d -> P (or_else o d). Proof. intros H D. destruct o; [apply H; reflexivity|exact D]. Qed.
Lemma sane_section n m : no_nul n -> sanely (dataset_section n m).
Proof.
  intros N. unfold dataset_section. apply (sn_local _ _ _ _ _ (gets_any _)). intros t _. apply (sn_local _ _ _ _ _ gets_array). intros dims D. apply (sn_local _ _ _ _ _ gets_array). intros chunks K.
  apply (sn_local _ _ _ _ _ (gets_any _)). intros comp _. apply (sn_local _ _ _ _ _ gets_uint). intros b1 B1. apply (sn_local _ _ _ _ _ gets_uint). intros b2 B2. apply (sn_local _ _ _ _ _ gets_uint). intros b3 B3. apply (sn_local _ _ _ _ _ (gets_any _)). intros lh _.
  apply sn_seq.
  - apply sn_base, fs_dataset; [exact N| |]; cbn; [apply (some_val _ _ _ _ D)|apply (some_val _ _ _ _ K)]; apply sizes_of.
  - intros _. apply sn_set. intros s (W & A & E & B). pose proof (B n) as Bn. destruct (x_blosc s n) as ((a & b) & c) eqn:XB. destruct Bn as (Ba & Bb & Bc). split; [exact W|]. split; [exact A|]. split; [exact E|]. cbn. intros k. unfold update. destruct (String.eqb k n); [|apply B]. split; [exact (or_in _ _ _ B1 Ba)|]. split; [exact (or_in _ _ _ B2 Bb)|exact (or_in _ _ _ B3 Bc)].
Qed.
Lemma sane_new n : no_nul n -> sanely (new_dataset n).
Proof.
  intros N. apply sn_seq; [|intros _; apply sn_base, fs_new, N]. apply sn_set. intros s S. destruct (find_def (w_defs (x_fw s)) n); [exact S|]. destruct S as (W & A & E & B). split; [exact W|]. split; [exact A|]. split; [exact E|]. cbn. intros k. unfold update. destruct (String.eqb k n); [|apply B]. unfold uint32. lia.
Qed.
Lemma sane_sections now m l : Forall no_nul l -> sanely (dataset_sections now m l).
Proof. induction 1 as [|n l N F IH]; cbn [dataset_sections]; [apply sn_ret|]. apply sn_seq; [apply sane_new, N|intros _]. apply sn_seq; [apply sn_lift|intros c]. apply sn_seq; [apply sane_section, N|intros _; exact IH]. Qed.
Lemma sane_body look now m : sanely (configure_body look now m).
Proof.
  unfold configure_body. apply sn_seq; [apply (sn_setting _ _ _ _ _ (gets_any _)); intros c _; apply sane_process|intros _]. apply sn_seq; [apply (sn_setting _ _ _ _ _ (gets_any _)); intros c _; apply sane_file|intros _]. apply sn_seq.
  { apply sn_seq; [apply sn_lift|]. intros []; [|apply sn_ret]. destruct (text m "dataset") as [n|e|] eqn:T; [apply sane_new, (gets_text _ _ _ T)| |intros s r S; exact S].
    assert (Q : sanely (cseq (clift (part now m "dataset")) (fun c => cseq (clift (get_param_names c)) (fun names => dataset_sections now c names)))).
    { apply sn_seq; [apply sn_lift|]. intros c s r S. unfold cseq, clift. unfold get_param_names. destruct (params_of c) as [[]|]; try exact S. apply sane_sections; [|exact S]. apply Forall_map, Forall_forall. intros x _. apply cstr_no_nul. }
    destruct e; try exact Q; apply sn_throw. }
  intros _. apply sn_seq.
  { apply sn_seq; [apply sn_lift|]. intros []; [|apply sn_ret]. apply sn_seq.
    - apply sn_base, fs_put. intros w (G & P & M & F). sw. split; [exact Logic.I|intros d []].
    - intros _. apply sn_set. intros s (W & A & E & B). split; [exact W|]. split; [exact A|]. split; [exact E|]. cbn. intros k. unfold uint32. lia. }
  intros _. apply sn_seq; [apply (sn_setting _ _ _ _ _ gets_u64); intros a I; apply sn_base, fs_rest; vals|intros _].
  apply sn_seq; [apply (sn_setting _ _ _ _ _ gets_text); intros a I; apply sn_base, fs_rest; vals|intros _].
  apply sn_seq; [apply (sn_setting _ _ _ _ _ gets_text); intros a I; apply sn_base, fs_rest; vals|intros _].
  apply sn_seq; [apply (sn_setting _ _ _ _ _ gets_u64); intros a I; apply sn_base, fs_rest; vals|intros _].
  apply (sn_setting _ _ _ _ _ (gets_any _)). intros b _. apply sn_seq; [apply sn_get|]. intros s0. destruct (b && w_writing (x_fw s0)); [|apply sn_ret]. apply sn_set. intros s S. destruct (w_active (x_fw s)); exact S.
Qed.
Lemma sane_configure look now m : sanely (fwx_configure look now m).
Proof. intros s r S. unfold fwx_configure. pose proof (sane_body look now m s r S) as H. destruct (configure_body look now m s r) as ((s1 & r1) & [u|[]|]); exact H. Qed.

(** ** Calls that are not messages *)
Lemma fs_cur {A} (m : M A) : fsane (on_cur m).
Proof. intros w S. unfold on_cur. destruct (m (St (w_cur w) (w_disk w) (w_log w))) as (s & r). exact S. Qed.
Lemma fs_no_prep : fsane (fput (set_next no_prep)).
Proof. apply fs_put. intros w (G & P & M & F). sw. unfold no_nul, size. cbn. repeat split; auto; lia. Qed.
Lemma fs_start i : fsane (start_writing i).
Proof.
  unfold start_writing. apply fs_bind; [apply fs_get|]. intros w. destruct (w_writing w); [apply fs_ret|]. apply fs_bind; [apply fs_lift|]. intros n. cbv zeta. apply fs_bind; [apply fs_put; intros w' S; exact S|intros _]. apply fs_bind; [apply fs_no_prep|intros _]. apply fs_bind; [apply fs_cur|]. intros b. apply fs_put. intros w' S; exact S.
Qed.
Lemma fs_stop : fsane stop_writing.
Proof. unfold stop_writing. apply fs_bind; [apply fs_get|]. intros w. destruct (w_writing w); [|apply fs_ret]. apply fs_bind; [apply fs_put; intros w' S; exact S|intros _; apply fs_cur]. Qed.
Lemma fs_stop_acq i : fsane (stop_acq i).
Proof.
  unfold stop_acq. apply fs_bind; [apply fs_get|]. intros w. cbv zeta. apply fs_bind; [apply fs_stop|intros _]. apply fs_bind; [|intros _; apply fs_put; intros w' S; exact S]. destruct (negb _ && _)%bool; [|apply fs_ret]. destruct (_ && _)%bool; [apply fs_no_prep|apply fs_start].
Qed.
Lemma fs_call c : ~ is_configure c -> fsane (fw_call c).
Proof.
  intros N. destruct c as [ok c|i0 i i1 f|i|i c| |i]; cbn [fw_call]; [destruct N; exact Logic.I|..].
  - unfold fw_process_frame. apply fs_bind.
    + unfold frame_in_acq. apply fs_bind; [apply fs_get|]. intros w. destruct (String.eqb (f_acq f) ""); [apply fs_ret|]. destruct (_ && _)%bool; [apply fs_ret|]. destruct (String.eqb _ _); [apply fs_bind; [apply fs_stop|intros _]; apply fs_bind; [apply fs_start|intros _; apply fs_ret]|]. apply fs_bind; [destruct (w_writing w); [apply fs_say|apply fs_ret]|intros _; apply fs_ret].
    + intros b. destruct (negb b); [apply fs_ret|]. apply fs_bind; [apply fs_get|]. intros w. destruct (negb (w_writing w)); [apply fs_ret|]. apply fs_bind; [apply fs_cur|]. intros st. apply fs_bind; [destruct st; first [apply fs_stop_acq|apply fs_say|apply fs_ret]|intros _; apply fs_say].
  - unfold fw_eoa. apply fs_bind; [apply fs_get|]. intros w. apply fs_bind; [destruct (w_writing w); [apply fs_stop_acq|apply fs_ret]|intros _; apply fs_say].
  - unfold fw_execute. apply fs_bind; [apply fs_get|]. intros w. destruct c; [|apply fs_stop|apply fs_ret]. destruct (_ && _)%bool; [|apply fs_start]. apply fs_bind; [apply fs_no_prep|intros _]. destruct (w_writing w); [apply fs_ret|]. apply fs_put. intros w' S; exact S.
  - apply fs_put. intros w S; exact S.
  - unfold fw_timeout. apply fs_bind; [apply fs_get|]. intros w. apply fs_bind; [|intros _; apply fs_put; intros w' S; exact S]. destruct (_ && _)%bool; [|apply fs_ret]. apply fs_bind; [apply fs_say|intros _; apply fs_stop_acq].
Qed.
Lemma sane_execute i c : sanely (fwx_execute i c).
Proof.
  assert (B : forall t cmd, sanely (base t (fw_execute i cmd))) by (intros t cmd; apply sn_base; apply (fs_call (OExecute i cmd)); intros []).
  unfold fwx_execute. destruct (String.eqb c "start_writing"); [apply B|]. destruct (String.eqb c "stop_writing"); [apply B|]. apply sn_seq; [apply B|intros _; apply sn_nack].
Qed.
Lemma inv_init n act dk : inv (fwx_init n act dk).
Proof.
  split; [|repeat split; cbn; unfold uint64, uint32; lia]. unfold sane_w, geom_sane, next_sane, names_sane, defs_sane, size, no_nul. cbn. repeat split; try lia; try tauto. intuition discriminate.
Qed.
Lemma lived_inv P Q n act dk s : lived P Q n act dk s -> inv s /\ x_name s = n.
Proof.
  induction 1 as [|s look now m r s1 r1 o L (IH & E) H NU|s i c r s1 r1 o L (IH & E) PI H NU|s L IH|s c w o file timing woken L ((W & X) & E) NC OK H NU].
  - split; [apply inv_init|reflexivity].
  - pose proof (sane_configure look now m s r IH) as K. pose proof (configure_refines _ _ _ _ _ _ _ _ H NU) as (_ & O). rewrite H in K. split; [exact K|]. rewrite <- E. apply O.
  - pose proof (sane_execute i c s r IH) as K. rewrite H in K. split; [exact K|]. assert (x_name s1 = x_name s) as ->; [|exact E]. clear - H. unfold fwx_execute in H. assert (B : forall t cmd, x_name (fst (fst (base t (fw_execute i cmd) s r))) = x_name s) by (intros t cmd; unfold base; destruct (fw_execute i cmd (x_fw s)); reflexivity).
    destruct (String.eqb c "start_writing"); [rewrite <- (B "" CmdStart), H; reflexivity|]. destruct (String.eqb c "stop_writing"); [rewrite <- (B "" CmdStop), H; reflexivity|]. unfold cseq in H. cbn in H. unfold cnack in H. destruct (set_nack r _). injection H as <- <- <-. reflexivity.
  - exact IH.
  - split; [|reflexivity]. pose proof (fs_call c NC _ W) as K. rewrite H in K. split; [exact K|exact X].
Qed.
Lemma lived_sane P Q n act dk s : lived P Q n act dk s -> sane s /\ x_name s = n.
Proof. intros L. destruct (lived_inv _ _ _ _ _ _ L) as (I & E). split; [apply inv_sane, I|exact E]. Qed.
