(** PropBuild.v -- C70: build-time configuration. *)
From Coq Require Import String Ascii ZArith List Permutation Lia.
From Verif Require Import Base Csma Build SpecBuild.
Import ListNotations.
Open Scope string_scope.

(** the lines that define the constant [name] *)
Definition definitions (name : string) (ls : list line) : list line :=
  filter (fun l => match l with Const n _ _ => String.eqb n name | Use _ => false end) ls.
(** the variables set that are meant for this crate *)
Definition set (env : list variable) : list string :=
  flat_map (fun v => match v with Var n _ => if String.prefix "DOT15D4_" n then [n] else [] | NotUnicode => [] end) env.

Lemma strip_prefix_iff p : forall s t, strip_prefix p s = Some t <-> s = (p ++ t)%string.
Proof.
  induction p as [|a p IH]; intros s t; cbn; [split; intros H; [injection H as ->|rewrite H]; reflexivity|]. destruct s as [|b s]; [split; discriminate|].
  destruct (Ascii.eqb_spec a b) as [->|N]; [rewrite IH; split; intros H; [rewrite H; reflexivity|injection H as H; exact H]|split; intros H; [discriminate|injection H as H1 H2; congruence]].
Qed.
Lemma prefix_iff p : forall s, String.prefix p s = match strip_prefix p s with Some _ => true | None => false end.
Proof.
  induction p as [|a p IH]; intros [|b s]; cbn; try reflexivity. destruct (Ascii.ascii_dec a b) as [->|N]; [rewrite Ascii.eqb_refl; apply IH|].
  destruct (Ascii.eqb_spec a b); [congruence|reflexivity].
Qed.
Lemma app_same_prefix p : forall a b, (p ++ a)%string = (p ++ b)%string -> a = b.
Proof. induction p as [|c p IH]; intros a b H; cbn in H; [exact H|injection H as H; auto]. Qed.
Lemma remove_entry_some n : forall m v m', remove_entry n m = Some (v, m') -> exists a b, m = (a ++ (n, v) :: b)%list /\ m' = (a ++ b)%list.
Proof.
  induction m as [|[k w] m IH]; intros v m' H; [discriminate|]. cbn in H. destruct (String.eqb_spec k n) as [->|N].
  - injection H as <- <-. exists [], m. split; reflexivity.
  - destruct (remove_entry n m) as [[w' r]|] eqn:E; [|discriminate]. injection H as <- <-. destruct (IH _ _ eq_refl) as (a & b & -> & ->).
    exists ((k, w) :: a), b. split; reflexivity.
Qed.
Lemma remove_entry_none n : forall m, remove_entry n m = None -> ~ In n (map fst m).
Proof.
  induction m as [|[k w] m IH]; intros H; [intros []|]. cbn in H. destruct (String.eqb_spec k n) as [->|N]; [discriminate|].
  destruct (remove_entry n m) as [[w' r]|] eqn:E; [discriminate|]. intros [X|X]; [exact (N X)|exact (IH eq_refl X)].
Qed.
Definition consts (m : list (string * (string * string))) : list line := map (fun c => Const (fst c) (fst (snd c)) (snd (snd c))) m.
Lemma defs_app n a b : definitions n (a ++ b) = (definitions n a ++ definitions n b)%list.
Proof. apply filter_app. Qed.
Lemma defs_none n m : ~ In n (map fst m) -> definitions n (consts m) = [].
Proof.
  induction m as [|[k w] m IH]; intros H; [reflexivity|]. cbn. destruct (String.eqb_spec k n) as [->|N]; [destruct H; left; reflexivity|]. apply IH. intros X. apply H. right. exact X.
Qed.
Lemma defs_one n ty d m : NoDup (map fst m) -> In (n, (ty, d)) m -> definitions n (consts m) = [Const n ty d].
Proof.
  induction m as [|[k [t x]] m IH]; intros HN HI; [destruct HI|]. cbn in HN. inversion HN as [|? ? H1 H2]; subst. cbn. destruct HI as [X|HI].
  - injection X as -> -> ->. rewrite String.eqb_refl. f_equal. apply defs_none. exact H1.
  - destruct (String.eqb_spec k n) as [->|N]; [destruct H1; exact (in_map fst _ _ HI)|]. apply IH; assumption.
Qed.
Lemma collect_known env : forall m data m', NoDup (map fst m) -> collect env m = Done (data, m') -> NoDup (map fst m') /\
  (forall n, ~ In n (map fst m) -> definitions n (data ++ consts m') = []) /\
  (forall n ty d, In (n, (ty, d)) m -> exists v, definitions n (data ++ consts m') = [Const n ty v] /\
     (In (Var ("DOT15D4_" ++ n) v) env \/ (forall x, ~ In (Var ("DOT15D4_" ++ n) x) env) /\ v = d)).
Proof.
  induction env as [|[var value|] env IH]; intros m data m' HN H; cbn [collect] in H; [| |discriminate].
  - injection H as <- <-. split; [exact HN|]. split; [intros n X; exact (defs_none n m X)|]. intros n ty d HI. exists d. split; [exact (defs_one _ _ _ _ HN HI)|]. right. split; [intros x []|reflexivity].
  - destruct (strip_prefix "DOT15D4_" var) as [name|] eqn:ES.
    + apply strip_prefix_iff in ES. subst var. destruct (remove_entry name m) as [[[ty0 d0] m1]|] eqn:ER; [|discriminate].
      destruct (collect env m1) as [[data1 m2]|] eqn:EC; [|discriminate]. injection H as <- <-.
      apply remove_entry_some in ER. destruct ER as (a & b & -> & ->). rewrite map_app in HN. cbn [map fst] in HN. assert (HN' := NoDup_remove_1 _ _ _ HN). assert (HNI := NoDup_remove_2 _ _ _ HN).
      rewrite <- map_app in HN', HNI. destruct (IH _ _ _ HN' EC) as (I1 & I2 & I3). split; [exact I1|]. split.
      * intros n HX. change ((Const name ty0 value :: data1) ++ consts m2)%list with (Const name ty0 value :: (data1 ++ consts m2))%list. unfold definitions. cbn [filter].
        rewrite map_app in HX. cbn [map fst] in HX. destruct (String.eqb_spec name n) as [->|NE]; [destruct HX; apply in_or_app; right; left; reflexivity|].
        apply I2. rewrite map_app. intros X. apply HX. apply in_app_or in X. apply in_or_app. destruct X as [X|X]; [left|right; right]; exact X.
      * intros n ty d HI. change ((Const name ty0 value :: data1) ++ consts m2)%list with (Const name ty0 value :: (data1 ++ consts m2))%list. unfold definitions. cbn [filter]. destruct (String.eqb_spec name n) as [<-|NE].
        { assert (ty0 = ty) as ->.
          { apply in_app_or in HI. destruct HI as [HI|[HI|HI]]; [|injection HI as -> _; reflexivity|]; exfalso; apply HNI; rewrite map_app; apply in_or_app; [left|right]; exact (in_map fst _ _ HI). }
          exists value. split; [f_equal; exact (I2 name HNI)|]. left. left. reflexivity. }
        { assert (HI' : In (n, (ty, d)) (a ++ b)) by (apply in_app_or in HI; apply in_or_app; destruct HI as [HI|[HI|HI]]; [left; exact HI|exfalso; injection HI as HI1 _ _; exact (NE HI1)|right; exact HI]).
          destruct (I3 _ _ _ HI') as (v & V1 & V2). exists v. split; [exact V1|]. destruct V2 as [V2|[V2 V3]]; [left; right; exact V2|right]. split; [|exact V3].
          intros x [X|X]; [|exact (V2 x X)]. injection X as X _. apply NE. exact X. }
    + destruct (IH _ _ _ HN H) as (I1 & I2 & I3). split; [exact I1|]. split; [exact I2|]. intros n ty d HI. destruct (I3 _ _ _ HI) as (v & V1 & V2). exists v. split; [exact V1|].
      destruct V2 as [V2|[V2 V3]]; [left; right; exact V2|right]. split; [|exact V3]. intros x [X|X]; [|exact (V2 x X)]. injection X as -> ->.
      assert (Y := proj2 (strip_prefix_iff "DOT15D4_" _ n) eq_refl). discriminate (eq_trans (eq_sym ES) Y).
Qed.
Lemma perm_filter {A} (f : A -> bool) l l' : Permutation l l' -> Permutation (filter f l) (filter f l').
Proof.
  induction 1; cbn; [constructor|destruct (f x); [constructor|]; assumption|destruct (f x), (f y); try apply Permutation_refl; apply perm_swap|eapply Permutation_trans; eassumption].
Qed.
Lemma configs_nodup : NoDup (map fst configs).
Proof. cbn. repeat (constructor; [cbn; intuition discriminate|]). constructor. Qed.
Lemma used_configs n ty d : In (n, (ty, d)) used -> In (n, (ty, d)) configs.
Proof. cbn. intuition. Qed.

(** Whatever the environment, a successful build defines every constant the crate uses exactly once, with its type, and
    the value of its variable, or the default value if that is not set. *)
Theorem C70_constants : forall env ls name ty default, builds env (Done ls) -> In (name, (ty, default)) used ->
  exists v, definitions name ls = [Const name ty v] /\
    (In (Var ("DOT15D4_" ++ name) v) env \/ (forall x, ~ In (Var ("DOT15D4_" ++ name) x) env) /\ v = default).
Proof.
  intros env ls name ty d HB HU. inversion HB as [|data m o HC HP E]; subst ls. clear HB.
  destruct (collect_known _ _ _ _ configs_nodup HC) as (_ & _ & H). destruct (H _ _ _ (used_configs _ _ _ HU)) as (v & V1 & V2). exists v. split; [|exact V2].
  assert (X : Permutation (definitions name (data ++ consts m)) (definitions name (data ++ consts o))) by (apply perm_filter, Permutation_app_head, Permutation_map, HP).
  rewrite V1 in X. apply Permutation_length_1_inv in X. exact X.
Qed.
Print Assumptions C70_constants.

(** The build fails exactly when a variable is not Unicode, or one meant for this crate is unknown or occurs twice. *)
Lemma collect_panics env : forall m, NoDup (map fst m) ->
  collect env m <> Panic <-> ~ In NotUnicode env /\ NoDup (set env) /\ forall s, In s (set env) -> exists n, s = ("DOT15D4_" ++ n)%string /\ In n (map fst m).
Proof.
  induction env as [|[var value|] env IH]; intros m HN; cbn [collect].
  - split; [intros _|discriminate]. split; [intros []|]. split; [constructor|intros s []].
  - unfold set. cbn [flat_map]. fold (set env). rewrite prefix_iff. destruct (strip_prefix "DOT15D4_" var) as [name|] eqn:ES.
    + apply strip_prefix_iff in ES. subst var. cbn [app]. destruct (remove_entry name m) as [[[ty0 d0] m1]|] eqn:ER.
      * apply remove_entry_some in ER. destruct ER as (a & b & -> & ->). rewrite map_app in HN. cbn [map fst] in HN. assert (HN' := NoDup_remove_1 _ _ _ HN). assert (HNI := NoDup_remove_2 _ _ _ HN).
        rewrite <- map_app in HN', HNI. specialize (IH _ HN'). transitivity (collect env (a ++ b) <> Panic); [destruct (collect env (a ++ b)) as [[? ?]|]; split; congruence|]. rewrite IH.
        split; intros (H1 & H2 & H3).
        { split; [intros [X|X]; [discriminate|contradiction]|]. split.
          - constructor; [|exact H2]. intros X. destruct (H3 _ X) as (n & E & HI). apply app_same_prefix in E. subst n. contradiction.
          - intros s [<-|X]; [exists name; split; [reflexivity|rewrite map_app; apply in_or_app; right; left; reflexivity]|]. destruct (H3 _ X) as (n & E & HI). exists n. split; [exact E|].
            rewrite map_app in *. apply in_app_or in HI. apply in_or_app. destruct HI as [HI|HI]; [left|right; right]; exact HI. }
        { inversion H2 as [|? ? K1 K2]; subst. split; [intros X; apply H1; right; exact X|]. split; [exact K2|]. intros s X. destruct (H3 s (or_intror X)) as (n & -> & HI). exists n. split; [reflexivity|].
          rewrite map_app in *. apply in_app_or in HI. apply in_or_app. destruct HI as [HI|[HI|HI]]; [left; exact HI| |right; exact HI]. cbn in HI. subst n. contradiction. }
      * apply remove_entry_none in ER. split; [congruence|]. intros (_ & _ & H3) _. destruct (H3 _ (or_introl eq_refl)) as (n & E & HI). apply app_same_prefix in E. subst n. contradiction.
    + cbn [app]. rewrite (IH _ HN). split; intros (H1 & H2 & H3); (split; [|split; [exact H2|exact H3]]); [intros [X|X]; [discriminate|contradiction]|intros X; apply H1; right; exact X].
  - split; [congruence|]. intros (H & _). destruct H. left. reflexivity.
Qed.
Theorem C70_fails : forall env o, builds env o -> (o <> Panic <->
  ~ In NotUnicode env /\ NoDup (set env) /\ forall s, In s (set env) -> exists n, s = ("DOT15D4_" ++ n)%string /\ In n configurable).
Proof.
  intros env o HB. assert (X : o <> Panic <-> collect env configs <> Panic).
  { destruct HB as [H|data m o H _]; [rewrite H; split; congruence|]. rewrite H. split; congruence. }
  rewrite X, (collect_panics env configs configs_nodup).
  assert (Y : forall n, In n (map fst configs) <-> In n configurable) by (intros n; split; intros HI; cbn in HI; repeat (destruct HI as [<-|HI]; [cbn; auto 20|]); destruct HI).
  split; intros (H1 & H2 & H3); (split; [exact H1|split; [exact H2|]]); intros s HS; destruct (H3 s HS) as (n & E & HI); exists n; (split; [exact E|apply Y; exact HI]).
Qed.
Print Assumptions C70_fails.
(** Every environment has a result. *)
Theorem C70_total : forall env, exists o, builds env o.
Proof.
  intros env. destruct (collect env configs) as [[data m]|] eqn:E; [|exists Panic; constructor; exact E]. eexists. eapply builds_done; [exact E|apply Permutation_refl].
Qed.
Print Assumptions C70_total.

(** The parameters of the device that a generated file stands for. *)
Definition defined {A} (interpret : string -> option A) (ls : list line) (name : string) : option A :=
  match definitions name ls with [Const _ _ v] => interpret v | _ => None end.
Definition params_of (ls : list line) : option Params :=
  match defined u16_value ls "MAC_MIN_BE", defined u16_value ls "MAC_MAX_BE", defined u16_value ls "MAC_MAX_CSMA_BACKOFFS",
        defined duration_value ls "MAC_UNIT_BACKOFF_DURATION", defined u16_value ls "MAC_MAX_FRAME_RETIES" with
  | Some a, Some b, Some c, Some d, Some e =>
      match defined duration_value ls "MAC_AIFS_PERIOD", defined duration_value ls "MAC_SIFS_PERIOD",
            defined u16_value ls "MAC_PAN_ID", defined bool_value ls "MAC_IMPLICIT_BROADCAST" with
      | Some f, Some g, Some h, Some i => Some (mkParams (Z.to_N a) (Z.to_N b) (Z.to_N c) d (Z.to_N e) f g (Z.to_N h) i)
      | _, _, _, _ => None
      end
  | _, _, _, _, _ => None
  end.
(** Without any variable set, they are those of the unit tests. *)
Theorem C70_default_params : forall env ls, builds env (Done ls) -> set env = [] -> params_of ls = Some default_params.
Proof.
  intros env ls HB HS.
  assert (H : forall n ty d, In (n, (ty, d)) used -> definitions n ls = [Const n ty d]).
  { intros n ty d HI. destruct (C70_constants _ _ _ _ _ HB HI) as (v & -> & [V|[_ ->]]); [|reflexivity]. exfalso.
    assert (X : In ("DOT15D4_" ++ n)%string (set env)).
    { unfold set. apply in_flat_map. eexists. split; [exact V|]. cbn beta iota. rewrite prefix_iff, (proj2 (strip_prefix_iff "DOT15D4_" _ n) eq_refl). left. reflexivity. }
    rewrite HS in X. destruct X. }
  unfold params_of, defined. repeat (erewrite H; [|cbn; eauto 20]). vm_compute. reflexivity.
Qed.
Print Assumptions C70_default_params.
(** A variable that is set to a value changes the parameter it names and no other (one of the nine). *)
Theorem C70_one_set : forall value n ls, u16_value value = Some n -> builds [Var "DOT15D4_MAC_MAX_CSMA_BACKOFFS" value] (Done ls) ->
  params_of ls = Some (mkParams 0 8 (Z.to_N n) 320 3 1000 1000 65535 false).
Proof.
  intros value n ls HV HB.
  assert (H : forall m ty d, In (m, (ty, d)) used -> definitions m ls = [Const m ty (if String.eqb m "MAC_MAX_CSMA_BACKOFFS" then value else d)]).
  { intros m ty d HI. destruct (C70_constants _ _ _ _ _ HB HI) as (v & -> & [[V|[]]|[V ->]]).
    - injection V as V <-. subst m. reflexivity.
    - destruct (String.eqb_spec m "MAC_MAX_CSMA_BACKOFFS") as [->|_]; [|reflexivity]. destruct (V value). left. reflexivity. }
  unfold params_of, defined. repeat (erewrite H; [|cbn; eauto 20]). cbn [String.eqb Ascii.eqb Bool.eqb]. rewrite HV. vm_compute. reflexivity.
Qed.
Print Assumptions C70_one_set.

(** In general, whatever is set: each parameter is the meaning of the value its variable has, or of the default value, and
    depends on nothing else. *)
Fixpoint setting (env : list variable) (name default : string) : string :=
  match env with
  | [] => default
  | Var n v :: env => if String.eqb n ("DOT15D4_" ++ name) then v else setting env name default
  | NotUnicode :: env => setting env name default
  end.
Definition asked_params (env : list variable) : option Params :=
  let value := setting env in
  match u16_value (value "MAC_MIN_BE" "0"), u16_value (value "MAC_MAX_BE" "8"), u16_value (value "MAC_MAX_CSMA_BACKOFFS" "16"),
        duration_value (value "MAC_UNIT_BACKOFF_DURATION" "Duration::from_us((UNIT_BACKOFF_PERIOD * SYMBOL_RATE_INV_US) as i64)"),
        u16_value (value "MAC_MAX_FRAME_RETIES" "3") with
  | Some min_be, Some max_be, Some backoffs, Some unit, Some retries =>
      match duration_value (value "MAC_AIFS_PERIOD" "Duration::from_us(1000)"), duration_value (value "MAC_SIFS_PERIOD" "Duration::from_us(1000)"),
            u16_value (value "MAC_PAN_ID" "0xffff"), bool_value (value "MAC_IMPLICIT_BROADCAST" "false") with
      | Some aifs, Some sifs, Some pan_id, Some implicit_broadcast => Some {|
          p_min_be := Z.to_N min_be; p_max_be := Z.to_N max_be; p_backoffs := Z.to_N backoffs; p_unit := unit; p_retries := Z.to_N retries;
          p_aifs := aifs; p_sifs := sifs; p_pan_id := Z.to_N pan_id; p_implicit_broadcast := implicit_broadcast |}
      | _, _, _, _ => None
      end
  | _, _, _, _, _ => None
  end.
Lemma setting_none env name d : (forall x, ~ In (Var ("DOT15D4_" ++ name) x) env) -> setting env name d = d.
Proof.
  induction env as [|[n v|] env IH]; intros H; cbn [setting]; [reflexivity| |apply IH; intros x X; exact (H x (or_intror X))].
  destruct (String.eqb_spec n ("DOT15D4_" ++ name)) as [->|_]; [destruct (H v); left; reflexivity|]. apply IH. intros x X. exact (H x (or_intror X)).
Qed.
Lemma in_set env n v : In (Var ("DOT15D4_" ++ n) v) env -> In ("DOT15D4_" ++ n)%string (set env).
Proof. intros V. unfold set. apply in_flat_map. eexists. split; [exact V|]. cbn beta iota. rewrite prefix_iff, (proj2 (strip_prefix_iff "DOT15D4_" _ n) eq_refl). left. reflexivity. Qed.
Lemma setting_in env name d v : NoDup (set env) -> In (Var ("DOT15D4_" ++ name) v) env -> setting env name d = v.
Proof.
  induction env as [|[n w|] env IH]; intros HN HI; [destruct HI| |].
  - cbn [setting]. destruct (String.eqb_spec n ("DOT15D4_" ++ name)) as [->|NE].
    + unfold set in HN. cbn [flat_map] in HN. fold (set env) in HN. rewrite prefix_iff, (proj2 (strip_prefix_iff "DOT15D4_" _ name) eq_refl) in HN. inversion HN as [|? ? H1 H2]; subst.
      destruct HI as [HI|HI]; [injection HI as ->; reflexivity|]. destruct H1. exact (in_set _ _ _ HI).
    + destruct HI as [HI|HI]; [apply (f_equal (fun x => match x with Var a _ => a | NotUnicode => EmptyString end)) in HI; contradiction|]. apply IH; [|exact HI]. unfold set in *. cbn [flat_map] in HN. destruct (String.prefix "DOT15D4_" n); [inversion HN; assumption|exact HN].
  - cbn [setting]. apply IH; [exact HN|]. destruct HI as [HI|HI]; [discriminate|exact HI].
Qed.
Theorem C70_params : forall env ls, builds env (Done ls) -> params_of ls = asked_params env.
Proof.
  intros env ls HB. assert (HN : NoDup (set env)) by (apply (C70_fails env (Done ls) HB); discriminate).
  assert (H : forall n ty d, In (n, (ty, d)) used -> definitions n ls = [Const n ty (setting env n d)]).
  { intros n ty d HI. destruct (C70_constants _ _ _ _ _ HB HI) as (v & -> & [V|[V ->]]).
    - rewrite (setting_in env n d v HN V). reflexivity.
    - rewrite (setting_none env n d V). reflexivity. }
  unfold params_of, defined. repeat (erewrite H; [|cbn; eauto 20]). reflexivity.
Qed.
Print Assumptions C70_params.
Example C70_params_case : exists ls, builds [Var "PATH" "/bin"; Var "DOT15D4_MAC_PAN_ID" "0xABCD"; Var "DOT15D4_MAC_MAX_BE" "0_5"; Var "DOT15D4_MAC_IMPLICIT_BROADCAST" "true"] (Done ls) /\
  params_of ls = Some (mkParams 0 5 16 320 3 1000 1000 0xabcd true).
Proof. eexists. split; [eapply builds_done; [reflexivity|apply Permutation_refl]|]. vm_compute. reflexivity. Qed.

(** All documented variables can be set. *)
Definition C70_statement : Prop :=
  forall env o, builds env o -> ~ In NotUnicode env -> NoDup (set env) -> (forall s, In s (set env) -> In s documented) -> o <> Panic.
(** Not so: the one for the number of retransmissions is rejected. *)
Theorem C70_refuted : forall value, builds [Var "DOT15D4_MAC_MAX_FRAME_RETRIES" value] Panic.
Proof. intros value. constructor. reflexivity. Qed.
Print Assumptions C70_refuted.
Theorem C70_statement_refuted : ~ C70_statement.
Proof.
  intros H. refine (H [Var "DOT15D4_MAC_MAX_FRAME_RETRIES" "3"] Panic (C70_refuted _) _ _ _ eq_refl).
  - intros [X|[]]. discriminate.
  - repeat constructor. intros [].
  - intros s [<-|[]]. cbn. auto 10.
Qed.
Print Assumptions C70_statement_refuted.
Theorem C70_documented_partial : forall env o, builds env o -> ~ In NotUnicode env -> NoDup (set env) ->
  (forall s, In s (set env) -> In s documented /\ s <> "DOT15D4_MAC_MAX_FRAME_RETRIES") -> o <> Panic.
Proof.
  intros env o HB H1 H2 H3. apply (C70_fails env o HB). split; [exact H1|]. split; [exact H2|]. intros s HS. destruct (H3 s HS) as [HD HN]. cbn in HD.
  destruct HD as [<-|[<-|[<-|[<-|[<-|[<-|[<-|[]]]]]]]]; try congruence; [exists "MAC_MIN_BE"|exists "MAC_MAX_BE"|exists "MAC_UNIT_BACKOFF_DURATION"|exists "MAC_AIFS_PERIOD"|exists "MAC_SIFS_PERIOD"|exists "MAC_LIFS_PERIOD"];
    (split; [reflexivity|cbn; auto 20]).
Qed.
Print Assumptions C70_documented_partial.

Example C70_case : exists ls, builds [Var "PATH" "/bin"; Var "DOT15D4_MAC_MAX_BE" "5"] (Done ls) /\
  definitions "MAC_MAX_BE" ls = [Const "MAC_MAX_BE" "u16" "5"] /\ definitions "MAC_PAN_ID" ls = [Const "MAC_PAN_ID" "u16" "0xffff"].
Proof. eexists. split; [eapply builds_done; [reflexivity|apply Permutation_refl]|]. split; reflexivity. Qed.
