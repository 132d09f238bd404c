(** The constructors of the attrs classes (C82). *)
From Coq Require Import String ZArith List Arith Bool Lia.
From Verif Require Import Prelude ListFacts F64 Num Np Handlers Swarms Operators Generators Attrs SpecAttrs.
Import ListNotations.
Local Open Scope string_scope.
Local Open Scope list_scope.

Lemma dget_app : forall V (a b : dict V) k, dget (a ++ b) k = match dget a k with Some v => Some v | None => dget b k end.
Proof. induction a as [|[k' v] a IH]; intros b k; cbn; [reflexivity|]. destruct (k =? k')%string; [reflexivity|apply IH]. Qed.
Lemma dget_in : forall V (d : dict V) k v, dget d k = Some v -> In k (dkeys d).
Proof. induction d as [|[k' w] d IH]; intros k v E; cbn in *; [discriminate|]. destruct (String.eqb_spec k k'); [left; congruence|right; eapply IH; exact E]. Qed.
Lemma dget_combine : forall (names : list string) (args : list pyobj) k v, NoDup names ->
  (dget (combine names args) k = Some v <-> exists i, nth_error names i = Some k /\ nth_error args i = Some v).
Proof.
  induction names as [|n names IH]; intros [|a args] k v ND; cbn; try (split; [discriminate|intros (i & E1 & E2); destruct i; discriminate]).
  inversion ND as [|? ? NI ND']; subst. destruct (String.eqb_spec k n) as [->|NE].
  - split; [intros E; injection E as ->; exists 0; auto|]. intros (i & E1 & E2). destruct i as [|i]; [cbn in *; congruence|]. contradiction NI. eapply nth_error_In. exact E1.
  - rewrite IH by exact ND'. split; intros (i & E1 & E2); [exists (S i); auto|]. destruct i as [|i]; [cbn in E1; congruence|]. exists i. auto.
Qed.
Lemma skipn_nth : forall A n (l : list A) i, nth_error (skipn n l) i = nth_error l (n + i).
Proof. induction n as [|n IH]; intros [|x l] i; cbn; auto. destruct i; reflexivity. Qed.
Lemma in_skipn : forall n (l : list string) k, existsb (String.eqb k) (skipn n l) = true <-> exists i, n <= i /\ nth_error l i = Some k.
Proof.
  intros n l k. rewrite existsb_exists. split.
  - intros (y & I & E). apply String.eqb_eq in E. subst y. apply In_nth_error in I. destruct I as (i & I). rewrite skipn_nth in I. exists (n + i). split; [lia|exact I].
  - intros (i & L & E). exists k. split; [|apply String.eqb_refl]. apply (nth_error_In _ (i - n)). rewrite skipn_nth. replace (n + (i - n)) with i by lia. exact E.
Qed.
Lemma bind_callable : forall names args kw g, bind_args names args kw = Some g <-> callable names args kw /\ g = combine names args ++ kw.
Proof.
  intros names args kw g. unfold bind_args, callable. destruct (Nat.ltb_spec (length names) (length args)) as [L|L]; [split; [discriminate|intros [[L' _] _]; lia]|].
  destruct (forallb _ (dkeys kw)) eqn:F.
  - rewrite forallb_forall in F. split; [intros E; injection E as <-; split; [split; [exact L|]|reflexivity]|intros [_ ->]; reflexivity]. intros k I. apply in_skipn. exact (F k I).
  - split; [discriminate|]. intros [[_ K] _]. enough (T : forallb (fun k => existsb (String.eqb k) (skipn (length args) names)) (dkeys kw) = true) by congruence.
    apply forallb_forall. intros k I. apply in_skipn. exact (K k I).
Qed.
Lemma passed_get : forall names args kw k v, NoDup names -> callable names args kw -> (dget (combine names args ++ kw) k = Some v <-> passed names args kw k v).
Proof.
  intros names args kw k v ND [_ K]. rewrite dget_app. unfold passed. rewrite <- (dget_combine names args k v ND). destruct (dget (combine names args) k) as [w|] eqn:E.
  - split; [auto|]. intros [P|P]; [exact P|]. apply (dget_combine names args k w ND) in E. destruct E as (i & E1 & E2). destruct (K _ (dget_in _ _ _ _ P)) as (j & L & E3).
    assert (i = j) by (eapply NoDup_nth_error; [exact ND| |congruence]; apply nth_error_Some; congruence). subst j. apply nth_error_None in L. congruence.
  - split; [auto|]. intros [P|P]; [discriminate|exact P].
Qed.
Lemma omitted_get : forall names args kw k, NoDup names -> callable names args kw -> (dget (combine names args ++ kw) k = None <-> omitted names args kw k).
Proof.
  intros names args kw k ND C. split.
  - intros E v P. apply (passed_get _ _ _ _ _ ND C) in P. congruence.
  - intros O. destruct (dget (combine names args ++ kw) k) as [v|] eqn:E; [|reflexivity]. apply (passed_get _ _ _ _ _ ND C) in E. contradiction (O v E).
Qed.

(** *** One field after the other *)
Definition sel (o : option pyobj) (d : pyobj) : pyobj := match o with Some v => v | None => d end.
Lemma set_const : forall g self fs n va d, set_fields (mkField n va (const d) :: fs) g self = set_fields fs g (self ++ [(n, sel (dget g n) d)]).
Proof. intros. cbn. destruct (dget g n); reflexivity. Qed.
Lemma validate_ok : forall fs self, validate fs self = Ok tt <-> Forall (fun f => forall cs v, f_valid f = Some cs -> dget self (f_name f) = Some v -> existsb (isinstance v) cs = true) fs.
Proof.
  induction fs as [|f fs IH]; intros self; cbn [validate]; [split; constructor|]. destruct (f_valid f) as [cs|] eqn:V.
  - destruct (dget self (f_name f)) as [v|] eqn:D.
    + destruct (existsb (isinstance v) cs) eqn:X.
      * rewrite IH. split; [constructor; [intros; congruence|assumption]|intros F; inversion F; assumption].
      * split; [discriminate|]. intros F. inversion F as [|? ? H _]. rewrite (H _ _ V D) in X. discriminate.
    + rewrite IH. split; [constructor; [intros; congruence|assumption]|intros F; inversion F; assumption].
  - rewrite IH. split; [constructor; [intros; congruence|assumption]|intros F; inversion F; assumption].
Qed.
Lemma validate_err : forall fs self e, validate fs self = Err e -> e = TypeError.
Proof.
  induction fs as [|f fs IH]; intros self e E; cbn in E; [discriminate|]. destruct (f_valid f); [|eauto]. destruct (dget self (f_name f)); [|eauto].
  destruct (existsb _ _); [eauto|congruence].
Qed.
Lemma required_given : forall fs g self s, set_fields fs g self = Ok s -> forallb (fun f => match f_default f with Some _ => true | None => dmem g (f_name f) end) fs = true.
Proof.
  induction fs as [|f fs IH]; intros g self s E; cbn [set_fields forallb] in *; [reflexivity|]. unfold dmem at 1. destruct (dget g (f_name f)) as [v|]; cbn [bind] in E.
  - rewrite (IH _ _ _ E). destruct (f_default f); reflexivity.
  - destruct (f_default f) as [d|]; [|discriminate]. destruct (d self); [|discriminate]. cbn [bind] in E. rewrite (IH _ _ _ E). reflexivity.
Qed.
Lemma attrs_ok : forall fs args kw s, attrs_init fs args kw = Ok s <->
  callable (map f_name fs) args kw /\ set_fields fs (combine (map f_name fs) args ++ kw) [] = Ok s /\ validate fs s = Ok tt.
Proof.
  intros fs args kw s. unfold attrs_init. destruct (bind_args (map f_name fs) args kw) as [g|] eqn:B.
  - apply bind_callable in B. destruct B as [C ->]. set (g := combine (map f_name fs) args ++ kw). split.
    + intros E. destruct (forallb _ fs); [|discriminate]. destruct (set_fields fs g []) as [self|] eqn:S; [|discriminate]. cbn [bind] in E.
      destruct (validate fs self) as [[]|] eqn:V; [|discriminate]. injection E as <-. auto.
    + intros (_ & S & V). rewrite (required_given _ _ _ _ S), S. cbn [bind]. rewrite V. reflexivity.
  - split; [discriminate|]. intros (C & _). pose proof (proj2 (bind_callable (map f_name fs) args kw _) (conj C eq_refl)). congruence.
Qed.

Definition sort_of (cs : list pycls) (v : pyobj) : Prop := existsb (isinstance v) cs = true.
Lemma sort_array : forall v, sort_of [Cndarray] v <-> is_array v.
Proof. intros v. unfold sort_of, is_array. destruct v; cbn; split; intros H; try discriminate; eauto; destruct H as (? & H); discriminate. Qed.
Lemma sort_int : forall v, sort_of [Cint] v <-> is_int v.
Proof. intros v. unfold sort_of, is_int. destruct v; cbn; split; intros H; try discriminate; eauto; destruct H as [(? & H)|(? & H)]; discriminate. Qed.
Lemma sort_dict : forall v, sort_of [Cdict] v <-> is_dict v.
Proof. intros v. unfold sort_of, is_dict. destruct v; cbn; split; intros H; try discriminate; eauto; destruct H as (? & H); discriminate. Qed.
Lemma sort_tuple : forall v, sort_of [Ctuple] v <-> is_tuple v.
Proof. intros v. unfold sort_of, is_tuple. destruct v; cbn; split; intros H; try discriminate; eauto; destruct H as (? & H); discriminate. Qed.
Lemma sort_str : forall v, sort_of [Cstr] v <-> is_str v.
Proof. intros v. unfold sort_of, is_str. destruct v; cbn; split; intros H; try discriminate; eauto; destruct H as (? & H); discriminate. Qed.
Lemma sort_bool : forall v, sort_of [Cbool] v <-> is_bool v.
Proof. intros v. unfold sort_of, is_bool. destruct v; cbn; split; intros H; try discriminate; eauto; destruct H as (? & H); discriminate. Qed.
Lemma sort_float : forall v, sort_of [Cfloat] v <-> is_float v.
Proof. intros v. unfold sort_of, is_float. destruct v; cbn; split; intros H; try discriminate; eauto; destruct H as (? & H); discriminate. Qed.
Lemma sort_colormap : forall v, sort_of [CColormap] v <-> v = OColormap.
Proof. intros v. unfold sort_of. destruct v; cbn; split; intros H; try discriminate; reflexivity. Qed.
Lemma sort_or : forall c d cs v, sort_of (c :: d :: cs) v <-> sort_of [c] v \/ sort_of (d :: cs) v.
Proof. intros. unfold sort_of. cbn [existsb]. rewrite !orb_true_iff. intuition discriminate. Qed.
Lemma sel_sort : forall o d cs, sort_of cs d -> (sort_of cs (sel o d) <-> forall v, o = Some v -> sort_of cs v).
Proof. intros [w|] d cs D; cbn; split; auto; intros; [congruence|discriminate]. Qed.

(** *** Swarm *)
Lemma nodup_str : forall l : list string, (fix nd (l : list string) : bool := match l with [] => true | x :: r => negb (existsb (String.eqb x) r) && nd r end) l = true -> NoDup l.
Proof.
  induction l as [|x l IH]; intros E; constructor; apply andb_true_iff in E; destruct E as [E1 E2]; [|apply IH; exact E2].
  intros I. apply negb_true_iff in E1. enough (existsb (String.eqb x) l = true) by congruence. apply existsb_exists. exists x. split; [exact I|apply String.eqb_refl].
Qed.
Definition swarm_of (p v n d : pyobj) (g : dict pyobj) : dict pyobj :=
  [("position", p); ("velocity", v); ("n_particles", n); ("dimensions", d); ("options", sel (dget g "options") (ODict [])); ("pbest_pos", sel (dget g "pbest_pos") p);
   ("best_pos", sel (dget g "best_pos") (OArray [0])); ("pbest_cost", sel (dget g "pbest_cost") (OArray [0])); ("best_cost", sel (dget g "best_cost") (OFloat finf)); ("current_cost", sel (dget g "current_cost") (OArray [0]))].
Definition shape_at (o : option pyobj) (p : pyobj) (i : nat) : res pyobj :=
  match o with Some v => Ok v | None => match p with OArray sh => match nth_error sh i with Some n => Ok (OInt (Z.of_nat n)) | None => Err IndexError end | _ => Err AttributeError end end.
Lemma swarm_tail : forall p v n d g, set_fields (skipn 4 swarm_fields) g [("position", p); ("velocity", v); ("n_particles", n); ("dimensions", d)] = Ok (swarm_of p v n d g).
Proof.
  intros. unfold swarm_of. cbn [skipn swarm_fields set_fields f_name f_default const]. destruct (dget g "options"), (dget g "pbest_pos"), (dget g "best_pos"), (dget g "pbest_cost"), (dget g "best_cost"), (dget g "current_cost"); reflexivity.
Qed.
Lemma swarm_set : forall g, set_fields swarm_fields g [] =
  match dget g "position", dget g "velocity" with
  | Some p, Some v => do n <- shape_at (dget g "n_particles") p 0; do d <- shape_at (dget g "dimensions") p 1; Ok (swarm_of p v n d g)
  | _, _ => Err TypeError
  end.
Proof.
  intros g.
  change (set_fields swarm_fields g []) with
    (do p <- (match dget g "position" with Some v => Ok v | None => Err TypeError end); do v <- (match dget g "velocity" with Some v => Ok v | None => Err TypeError end);
     do n <- shape_at (dget g "n_particles") p 0; do d <- shape_at (dget g "dimensions") p 1;
     set_fields (skipn 4 swarm_fields) g [("position", p); ("velocity", v); ("n_particles", n); ("dimensions", d)]).
  destruct (dget g "position") as [p|]; [|reflexivity]. destruct (dget g "velocity") as [v|]; [|reflexivity]. cbn [bind].
  destruct (shape_at (dget g "n_particles") p 0) as [n|]; [|reflexivity]. cbn [bind]. destruct (shape_at (dget g "dimensions") p 1) as [d|]; [|reflexivity]. cbn [bind]. apply swarm_tail.
Qed.
Lemma swarm_nodup : NoDup swarm_names. Proof. apply nodup_str. reflexivity. Qed.
Lemma swarm_valid : forall p v n d g, validate swarm_fields (swarm_of p v n d g) = Ok tt <->
  is_array p /\ is_array v /\ is_int n /\ is_int d /\ (forall w, dget g "options" = Some w -> is_dict w) /\ (forall w, dget g "pbest_pos" = Some w -> is_array w) /\ (forall w, dget g "best_pos" = Some w -> is_array w) /\
  (forall w, dget g "pbest_cost" = Some w -> is_array w) /\ (forall w, dget g "best_cost" = Some w -> is_int w \/ is_float w) /\ (forall w, dget g "current_cost" = Some w -> is_array w).
Proof.
  intros p v n d g. rewrite validate_ok.
  assert (F : Forall (fun f => forall cs w, f_valid f = Some cs -> dget (swarm_of p v n d g) (f_name f) = Some w -> sort_of cs w) swarm_fields <->
    sort_of [Cndarray] p /\ sort_of [Cndarray] v /\ sort_of [Cint] n /\ sort_of [Cint] d /\ sort_of [Cdict] (sel (dget g "options") (ODict [])) /\ sort_of [Cndarray] (sel (dget g "pbest_pos") p) /\
    sort_of [Cndarray] (sel (dget g "best_pos") (OArray [0])) /\ sort_of [Cndarray] (sel (dget g "pbest_cost") (OArray [0])) /\ sort_of [Cint; Cfloat] (sel (dget g "best_cost") (OFloat finf)) /\ sort_of [Cndarray] (sel (dget g "current_cost") (OArray [0]))).
  { unfold swarm_fields. rewrite !Forall_cons_iff. cbn [f_valid f_name dget swarm_of String.eqb Ascii.eqb eqb]. split.
    - intros (F1 & F2 & F3 & F4 & F5 & F6 & F7 & F8 & F9 & F10 & _). repeat split; auto.
    - intros (F1 & F2 & F3 & F4 & F5 & F6 & F7 & F8 & F9 & F10). repeat split; try apply Forall_nil; intros cs w E1 E2; injection E1 as <-; injection E2 as <-; assumption. }
  unfold sort_of at 1 in F. rewrite F. clear F.
  assert (E1 : sort_of [Cdict] (sel (dget g "options") (ODict [])) <-> forall w, dget g "options" = Some w -> is_dict w) by (rewrite sel_sort by reflexivity; split; intros H w E; apply sort_dict, H, E).
  assert (E2 : forall k, sort_of [Cndarray] (sel (dget g k) (OArray [0])) <-> forall w, dget g k = Some w -> is_array w) by (intros k; rewrite sel_sort by reflexivity; split; intros H w E; apply sort_array, H, E).
  assert (E3 : sort_of [Cint; Cfloat] (sel (dget g "best_cost") (OFloat finf)) <-> forall w, dget g "best_cost" = Some w -> is_int w \/ is_float w).
  { rewrite sel_sort by reflexivity. split; intros H w E; specialize (H w E); rewrite sort_or, sort_int, sort_float in *; exact H. }
  assert (E4 : sort_of [Cndarray] p -> (sort_of [Cndarray] (sel (dget g "pbest_pos") p) <-> forall w, dget g "pbest_pos" = Some w -> is_array w)) by (intros S; rewrite sel_sort by exact S; split; intros H w E; apply sort_array, H, E).
  rewrite !E2, E1, E3, <- !sort_array, <- !sort_int. tauto.
Qed.
(** The call of [Swarm]. *)
Lemma swarm_call : forall args kw s, attrs_init swarm_fields args kw = Ok s <-> callable swarm_names args kw /\
  exists p v n d, let g := combine swarm_names args ++ kw in dget g "position" = Some p /\ dget g "velocity" = Some v /\ shape_at (dget g "n_particles") p 0 = Ok n /\ shape_at (dget g "dimensions") p 1 = Ok d /\
    s = swarm_of p v n d g /\ validate swarm_fields s = Ok tt.
Proof.
  intros args kw s. rewrite attrs_ok. change (map f_name swarm_fields) with swarm_names. set (g := combine swarm_names args ++ kw). rewrite swarm_set. cbv zeta. split.
  - intros (C & S & V). split; [exact C|]. destruct (dget g "position") as [p|]; [|discriminate]. destruct (dget g "velocity") as [v|]; [|discriminate].
    destruct (shape_at (dget g "n_particles") p 0) as [n|] eqn:SN; [|discriminate]. cbn [bind] in S. destruct (shape_at (dget g "dimensions") p 1) as [d|] eqn:SD; [|discriminate]. cbn [bind] in S.
    injection S as <-. exists p, v, n, d. auto 10.
  - intros (C & p & v & n & d & P & V & SN & SD & -> & VA). split; [exact C|]. split; [|exact VA]. rewrite P, V, SN. cbn [bind]. rewrite SD. reflexivity.
Qed.
Lemma shape_int : forall o sh i, (forall w, o = Some w -> is_int w) -> (o = None -> i < length sh) -> exists n, shape_at o (OArray sh) i = Ok n /\ is_int n.
Proof.
  intros [w|] sh i I L; cbn; [exists w; split; [reflexivity|apply I; reflexivity]|]. specialize (L eq_refl). destruct (nth_error sh i) as [m|] eqn:E; [|apply nth_error_None in E; lia].
  eexists. split; [reflexivity|]. left. eauto.
Qed.
Lemma swarm_accepts : forall args kw, (exists s, attrs_init swarm_fields args kw = Ok s) <->
  callable swarm_names args kw /\
  (exists sh, passed swarm_names args kw "position" (OArray sh) /\ (omitted swarm_names args kw "n_particles" -> 1 <= length sh) /\ (omitted swarm_names args kw "dimensions" -> 2 <= length sh)) /\
  (exists v, passed swarm_names args kw "velocity" v /\ is_array v) /\
  (forall v, passed swarm_names args kw "n_particles" v \/ passed swarm_names args kw "dimensions" v -> is_int v) /\
  (forall v, passed swarm_names args kw "options" v -> is_dict v) /\
  (forall k v, In k ["pbest_pos"; "best_pos"; "pbest_cost"; "current_cost"] -> passed swarm_names args kw k v -> is_array v) /\
  (forall v, passed swarm_names args kw "best_cost" v -> is_int v \/ is_float v).
Proof.
  intros args kw. split.
  - intros (s & E). apply swarm_call in E. destruct E as (C & p & v & n & d & P & V & SN & SD & -> & VA). pose proof (fun k v => passed_get swarm_names args kw k v swarm_nodup C) as G. pose proof (fun k => omitted_get swarm_names args kw k swarm_nodup C) as O.
    apply swarm_valid in VA. destruct VA as ((sh & ->) & AV & NI & DI & A5 & A6 & A7 & A8 & A9 & A10). split; [exact C|]. split; [|split; [|split; [|split; [|split]]]].
    + exists sh. split; [apply G, P|]. split; intros OM; apply O in OM; [rewrite OM in SN|rewrite OM in SD]; cbn in *; [destruct sh; [discriminate|cbn; lia]|destruct sh as [|? [|? ?]]; try discriminate; cbn; lia].
    + exists v. split; [apply G, V|exact AV].
    + intros w [W|W]; apply G in W; [rewrite W in SN; injection SN as <-; exact NI|rewrite W in SD; injection SD as <-; exact DI].
    + intros w W. apply A5, G, W.
    + intros k w [<-|[<-|[<-|[<-|[]]]]] W; apply G in W; auto.
    + intros w W. apply A9, G, W.
  - intros (C & (sh & P & ON & OD) & (v & V & AV) & NI & A5 & AK & A9). pose proof (fun k v => passed_get swarm_names args kw k v swarm_nodup C) as G. pose proof (fun k => omitted_get swarm_names args kw k swarm_nodup C) as O.
    destruct (shape_int (dget (combine swarm_names args ++ kw) "n_particles") sh 0) as (n & SN & In'); [intros w W; apply NI; left; apply G, W|intros W; apply O in W; specialize (ON W); lia|].
    destruct (shape_int (dget (combine swarm_names args ++ kw) "dimensions") sh 1) as (d & SD & Id); [intros w W; apply NI; right; apply G, W|intros W; apply O in W; specialize (OD W); lia|].
    eexists. apply swarm_call. split; [exact C|]. exists (OArray sh), v, n, d. cbv zeta. split; [apply G, P|]. split; [apply G, V|]. split; [exact SN|]. split; [exact SD|]. split; [reflexivity|].
    apply swarm_valid. split; [eexists; reflexivity|]. split; [exact AV|]. split; [exact In'|]. split; [exact Id|]. split; [intros w W; apply A5, G, W|].
    split; [intros w W; apply (AK "pbest_pos"); [cbn; auto|apply G, W]|]. split; [intros w W; apply (AK "best_pos"); [cbn; auto|apply G, W]|]. split; [intros w W; apply (AK "pbest_cost"); [cbn; auto|apply G, W]|].
    split; [intros w W; apply A9, G, W|]. intros w W; apply (AK "current_cost"); [cbn; auto 6|apply G, W].
Qed.
(** The attributes of the new object. *)
Lemma swarm_attributes : forall args kw s, attrs_init swarm_fields args kw = Ok s ->
  (forall k v, passed swarm_names args kw k v -> dget s k = Some v) /\
  (forall sh, dget s "position" = Some (OArray sh) ->
     (omitted swarm_names args kw "n_particles" -> exists n, nth_error sh 0 = Some n /\ dget s "n_particles" = Some (OInt (Z.of_nat n))) /\
     (omitted swarm_names args kw "dimensions" -> exists n, nth_error sh 1 = Some n /\ dget s "dimensions" = Some (OInt (Z.of_nat n)))) /\
  (omitted swarm_names args kw "pbest_pos" -> dget s "pbest_pos" = dget s "position") /\
  (omitted swarm_names args kw "best_cost" -> dget s "best_cost" = Some (OFloat finf)) /\
  (forall k, In k ["best_pos"; "pbest_cost"; "current_cost"] -> omitted swarm_names args kw k -> dget s k = Some (OArray [0])) /\
  (omitted swarm_names args kw "options" -> dget s "options" = Some (ODict [])).
Proof.
  intros args kw s E. apply swarm_call in E. destruct E as (C & p & v & n & d & P & V & SN & SD & -> & VA). pose proof (fun k v => passed_get swarm_names args kw k v swarm_nodup C) as G. pose proof (fun k => omitted_get swarm_names args kw k swarm_nodup C) as O.
  set (g := combine swarm_names args ++ kw) in *. split; [|split; [|split; [|split; [|split]]]].
  - intros k w W. pose proof W as W'. apply G in W.
    assert (K : In k swarm_names).
    { destruct W' as [(i & E & _)|W']; [eapply nth_error_In; exact E|]. destruct C as [_ C]. destruct (C _ (dget_in _ _ _ _ W')) as (i & _ & E). eapply nth_error_In. exact E. }
    repeat (destruct K as [<-|K]); [..|contradiction K]; cbn [swarm_of dget String.eqb Ascii.eqb eqb]; try (rewrite W; reflexivity); try congruence.
    + rewrite W in SN. injection SN as <-. reflexivity.
    + rewrite W in SD. injection SD as <-. reflexivity.
  - intros sh Q. cbn [swarm_of dget String.eqb Ascii.eqb eqb] in Q. injection Q as ->. split; intros OM; apply O in OM; [rewrite OM in SN; cbn [shape_at] in SN|rewrite OM in SD; cbn [shape_at] in SD].
    + destruct (nth_error sh 0) as [m|]; [|discriminate]. injection SN as <-. exists m. auto.
    + destruct (nth_error sh 1) as [m|]; [|discriminate]. injection SD as <-. exists m. auto.
  - intros OM. apply O in OM. cbn [swarm_of dget String.eqb Ascii.eqb eqb]. rewrite OM. reflexivity.
  - intros OM. apply O in OM. cbn [swarm_of dget String.eqb Ascii.eqb eqb]. rewrite OM. reflexivity.
  - intros k [<-|[<-|[<-|[]]]] OM; apply O in OM; cbn [swarm_of dget String.eqb Ascii.eqb eqb]; rewrite OM; reflexivity.
  - intros OM. apply O in OM. cbn [swarm_of dget String.eqb Ascii.eqb eqb]. rewrite OM. reflexivity.
Qed.
(** Which exception. *)
Lemma swarm_raises : forall args kw x, attrs_init swarm_fields args kw = Err x ->
  (x = AttributeError <-> callable swarm_names args kw /\ ~ omitted swarm_names args kw "velocity" /\ (omitted swarm_names args kw "n_particles" \/ omitted swarm_names args kw "dimensions") /\
     exists v, passed swarm_names args kw "position" v /\ ~ is_array v) /\
  (x = IndexError <-> callable swarm_names args kw /\ ~ omitted swarm_names args kw "velocity" /\
     exists sh, passed swarm_names args kw "position" (OArray sh) /\ (omitted swarm_names args kw "n_particles" /\ length sh = 0 \/ omitted swarm_names args kw "dimensions" /\ length sh <= 1)) /\
  (x = AttributeError \/ x = IndexError \/ x = TypeError).
Proof.
  intros args kw x E. unfold attrs_init in E. change (map f_name swarm_fields) with swarm_names in E. destruct (bind_args swarm_names args kw) as [g|] eqn:B.
  2:{ injection E as <-. assert (NC : ~ callable swarm_names args kw) by (intros C; pose proof (proj2 (bind_callable swarm_names args kw _) (conj C eq_refl)); congruence).
      split; [split; [discriminate|tauto]|]. split; [split; [discriminate|tauto]|auto]. }
  apply bind_callable in B. destruct B as [C ->]. pose proof (fun k v => passed_get swarm_names args kw k v swarm_nodup C) as G. pose proof (fun k => omitted_get swarm_names args kw k swarm_nodup C) as O.
  set (g := combine swarm_names args ++ kw) in *. rewrite swarm_set in E.
  assert (FB : forallb (fun f => match f_default f with Some _ => true | None => dmem g (f_name f) end) swarm_fields = dmem g "position" && dmem g "velocity").
  { cbn [forallb swarm_fields f_default f_name const shape_default pbest_default]. rewrite !andb_true_r. reflexivity. }
  rewrite FB in E. unfold dmem in E. clear FB.
  assert (NV : forall k, ~ omitted swarm_names args kw k <-> dget g k <> None) by (intros k; rewrite <- O; tauto).
  assert (PA : forall w, passed swarm_names args kw "position" w <-> dget g "position" = Some w) by (intros w; symmetry; apply G).
  destruct (dget g "position") as [p|] eqn:P; cbn [andb] in E.
  2:{ injection E as <-. split; [split; [discriminate|]|split; [split; [discriminate|]|auto]].
      - intros (_ & _ & _ & w & W & _). apply PA in W. discriminate.
      - intros (_ & _ & sh & W & _). apply PA in W. discriminate. }
  destruct (dget g "velocity") as [v|] eqn:V.
  2:{ injection E as <-. assert (NN : ~ ~ omitted swarm_names args kw "velocity") by (intros N; apply NV in N; congruence). split; [split; [discriminate|tauto]|]. split; [split; [discriminate|tauto]|auto]. }
  assert (HV : ~ omitted swarm_names args kw "velocity") by (apply NV; congruence).
  assert (TE : forall n d, shape_at (dget g "n_particles") p 0 = Ok n -> shape_at (dget g "dimensions") p 1 = Ok d ->
     ~ (exists w, passed swarm_names args kw "position" w /\ ~ is_array w /\ (omitted swarm_names args kw "n_particles" \/ omitted swarm_names args kw "dimensions")) /\
     ~ (exists sh, passed swarm_names args kw "position" (OArray sh) /\ (omitted swarm_names args kw "n_particles" /\ length sh = 0 \/ omitted swarm_names args kw "dimensions" /\ length sh <= 1))).
  { intros n d SN SD. split.
    - intros (w & W & NA & OM). apply PA in W. injection W as <-. rewrite <- !O in OM. destruct OM as [OM|OM]; [rewrite OM in SN|rewrite OM in SD]; cbn [shape_at] in *; apply NA; unfold is_array; destruct p; try discriminate; eauto.
    - intros (sh & W & OM). apply PA in W. injection W as ->. rewrite <- !O in OM. destruct OM as [[OM L]|[OM L]]; [rewrite OM in SN|rewrite OM in SD]; cbn [shape_at] in *.
      + destruct sh; [discriminate|cbn in L; lia].
      + destruct sh as [|a [|b sh]]; try discriminate. cbn in L. lia. }
  destruct (shape_at (dget g "n_particles") p 0) as [n|y] eqn:SN; [destruct (shape_at (dget g "dimensions") p 1) as [d|y] eqn:SD|]; cbn [bind] in E.
  - destruct (validate swarm_fields (swarm_of p v n d g)) as [u|y] eqn:VA; [discriminate|]. cbn [bind] in E. injection E as ->. apply validate_err in VA. subst x. destruct (TE n d eq_refl eq_refl) as [T1 T2].
    split; [split; [discriminate|]|split; [split; [discriminate|]|auto]].
    + intros (_ & _ & OM & w & W & NA). contradiction T1. exists w. auto.
    + intros (_ & _ & sh & W & OM). contradiction T2. exists sh. auto.
  - injection E as ->. destruct (dget g "dimensions") as [d|] eqn:OD; [discriminate|]. cbn [shape_at] in SD. apply O in OD.
    destruct p as [sh| | | | | | | | | |]; try (injection SD as <-; split; [split; [intros _; split; [exact C|split; [exact HV|split; [auto|eexists; split; [apply PA; reflexivity|intros (? & Q); discriminate]]]]|reflexivity]|]; split; [split; [discriminate|intros (_ & _ & sh & W & _); apply PA in W; discriminate]|auto]).
    destruct (nth_error sh 1) as [m|] eqn:L; [discriminate|]. apply nth_error_None in L. injection SD as <-. split; [split; [discriminate|intros (_ & _ & _ & w & W & NA); apply PA in W; injection W as <-; contradiction NA; eexists; reflexivity]|].
    split; [split; [intros _|reflexivity]|auto]. split; [exact C|]. split; [exact HV|]. exists sh. split; [apply PA; reflexivity|]. right. split; [exact OD|exact L].
  - injection E as ->. destruct (dget g "n_particles") as [d|] eqn:OD; [discriminate|]. cbn [shape_at] in SN. apply O in OD.
    destruct p as [sh| | | | | | | | | |]; try (injection SN as <-; split; [split; [intros _; split; [exact C|split; [exact HV|split; [auto|eexists; split; [apply PA; reflexivity|intros (? & Q); discriminate]]]]|reflexivity]|]; split; [split; [discriminate|intros (_ & _ & sh & W & _); apply PA in W; discriminate]|auto]).
    destruct (nth_error sh 0) as [m|] eqn:L; [discriminate|]. apply nth_error_None in L. injection SN as <-. split; [split; [discriminate|intros (_ & _ & _ & w & W & NA); apply PA in W; injection W as <-; contradiction NA; eexists; reflexivity]|].
    split; [split; [intros _|reflexivity]|auto]. split; [exact C|]. split; [exact HV|]. exists sh. split; [apply PA; reflexivity|]. left. split; [exact OD|lia].
Qed.

(** *** The formatters *)
Lemma set_keeps : forall fs g self s k v, set_fields fs g self = Ok s -> dget self k = Some v -> dget s k = Some v.
Proof.
  induction fs as [|f fs IH]; intros g self s k v E D; cbn [set_fields] in E; [injection E as <-; exact D|].
  match type of E with bind ?z _ = _ => destruct z as [w|]; [|discriminate] end. cbn [bind] in E. eapply IH; [exact E|]. rewrite dget_app, D. reflexivity.
Qed.
Lemma dget_none : forall V (d : dict V) k, ~ In k (dkeys d) -> dget d k = None.
Proof. intros V d k N. destruct (dget d k) as [v|] eqn:E; [|reflexivity]. contradiction N. eapply dget_in. exact E. Qed.
Lemma set_given : forall fs g self s k v, set_fields fs g self = Ok s -> NoDup (dkeys self ++ map f_name fs) -> In k (map f_name fs) -> dget g k = Some v -> dget s k = Some v.
Proof.
  induction fs as [|f fs IH]; intros g self s k v E ND I D; [contradiction I|]. cbn [set_fields] in E.
  match type of E with bind ?z _ = _ => destruct z as [w|] eqn:Z; [|discriminate] end. cbn [bind] in E.
  assert (ND' : NoDup (dkeys (self ++ [(f_name f, w)]) ++ map f_name fs)) by (unfold dkeys in *; rewrite map_app, <- app_assoc; exact ND).
  destruct I as [<-|I]; [|exact (IH _ _ _ _ _ E ND' I D)]. rewrite D in Z. injection Z as <-. eapply set_keeps; [exact E|].
  rewrite dget_app. rewrite dget_none; [cbn; rewrite String.eqb_refl; reflexivity|]. cbn [map] in ND. apply NoDup_remove_2 in ND. intros N. apply ND. apply in_or_app. left. exact N.
Qed.
Lemma attrs_passed : forall fs args kw s k v, NoDup (map f_name fs) -> attrs_init fs args kw = Ok s -> passed (map f_name fs) args kw k v -> dget s k = Some v.
Proof.
  intros fs args kw s k v ND E P. apply attrs_ok in E. destruct E as (C & S & _).
  assert (K : In k (map f_name fs)).
  { destruct P as [(i & E & _)|P]; [eapply nth_error_In; exact E|]. destruct C as [_ C]. destruct (C _ (dget_in _ _ _ _ P)) as (i & _ & E). eapply nth_error_In. exact E. }
  eapply set_given; [exact S|exact ND|exact K|]. apply passed_get; assumption.
Qed.
Lemma formatter_nodup : NoDup designer_names /\ NoDup animator_names /\ NoDup mesher_names.
Proof. repeat split; apply nodup_str; reflexivity. Qed.
Lemma formatter_keeps : forall args kw s k v,
  (attrs_init designer_fields args kw = Ok s -> passed designer_names args kw k v -> dget s k = Some v) /\
  (attrs_init animator_fields args kw = Ok s -> passed animator_names args kw k v -> dget s k = Some v) /\
  (attrs_init mesher_fields args kw = Ok s -> passed mesher_names args kw k v -> dget s k = Some v).
Proof.
  intros args kw s k v. destruct formatter_nodup as (N1 & N2 & N3).
  split; [exact (attrs_passed designer_fields args kw s k v N1)|]. split; [exact (attrs_passed animator_fields args kw s k v N2)|exact (attrs_passed mesher_fields args kw s k v N3)].
Qed.
Lemma designer_set : forall g, set_fields designer_fields g [] = Ok
  [("figsize", sel (dget g "figsize") (OTuple [OInt 10; OInt 8])); ("title_fontsize", sel (dget g "title_fontsize") (OStr "large")); ("text_fontsize", sel (dget g "text_fontsize") (OStr "medium")); ("legend", sel (dget g "legend") (OStr "Cost"));
   ("label", sel (dget g "label") (OList [OStr "x-axis"; OStr "y-axis"; OStr "z-axis"])); ("limits", sel (dget g "limits") (OList [unit_pair; unit_pair; unit_pair])); ("colormap", sel (dget g "colormap") OColormap)].
Proof. intros g. unfold designer_fields. rewrite !set_const. reflexivity. Qed.
Lemma animator_set : forall g, set_fields animator_fields g [] = Ok [("interval", sel (dget g "interval") (OInt 80)); ("repeat_delay", sel (dget g "repeat_delay") ONone); ("repeat", sel (dget g "repeat") (OBool true))].
Proof. intros g. unfold animator_fields. rewrite !set_const. reflexivity. Qed.
Lemma mesher_set : forall g, set_fields mesher_fields g [] = match dget g "func" with
  | Some f => Ok [("func", f); ("delta", sel (dget g "delta") (OFloat (fdec 1 1000))); ("limits", sel (dget g "limits") (OList [unit_pair; unit_pair])); ("levels", sel (dget g "levels") (OArray [58])); ("alpha", sel (dget g "alpha") (OFloat (fdec 3 10)))]
  | None => Err TypeError end.
Proof.
  intros g. unfold mesher_fields.
  match goal with |- set_fields (?f :: ?fs) g [] = _ => change (set_fields (f :: fs) g []) with (do v <- (match dget g "func" with Some v => Ok v | None => Err TypeError end); set_fields fs g [("func", v)]) end.
  destruct (dget g "func") as [f|]; [|reflexivity]. cbn [bind]. rewrite !set_const. reflexivity.
Qed.
Ltac fields := rewrite validate_ok; unfold designer_fields, animator_fields, mesher_fields; rewrite !Forall_cons_iff; cbn [f_valid f_name dget String.eqb Ascii.eqb eqb].
Lemma sel_iff : forall g k d cs (Q : pyobj -> Prop) P, (forall v, sort_of cs v <-> Q v) -> (forall v, dget g k = Some v <-> P v) -> sort_of cs d ->
  ((forall cs' w, Some cs = Some cs' -> Some (sel (dget g k) d) = Some w -> existsb (isinstance w) cs' = true) <-> forall v, P v -> Q v).
Proof.
  intros g k d cs Q P SQ GP D. split.
  - intros H v V. specialize (H _ _ eq_refl eq_refl). fold (sort_of cs (sel (dget g k) d)) in H. rewrite sel_sort in H by exact D. apply SQ, H, GP, V.
  - intros H cs' w E1 E2. injection E1 as <-. injection E2 as <-. apply (sel_sort (dget g k) d cs D). intros v V. apply SQ, H, GP, V.
Qed.
Lemma designer_accepts : forall args kw, (exists s, attrs_init designer_fields args kw = Ok s) <-> callable designer_names args kw /\
  (forall v, passed designer_names args kw "figsize" v -> is_tuple v) /\
  (forall v, passed designer_names args kw "title_fontsize" v -> is_str v \/ is_int v \/ is_float v) /\
  (forall v, passed designer_names args kw "text_fontsize" v -> is_str v \/ is_int v \/ is_float v) /\
  (forall v, passed designer_names args kw "legend" v -> is_str v) /\
  (forall v, passed designer_names args kw "label" v -> is_str v \/ is_list v \/ is_tuple v) /\
  (forall v, passed designer_names args kw "limits" v -> is_list v \/ is_tuple v) /\
  (forall v, passed designer_names args kw "colormap" v -> v = OColormap).
Proof.
  intros args kw.
  assert (SF : forall v, sort_of [Cstr; Cint; Cfloat] v <-> is_str v \/ is_int v \/ is_float v) by (intros v; rewrite !sort_or, sort_str, sort_int, sort_float; reflexivity).
  assert (SL : forall v, sort_of [Clist] v <-> is_list v) by (intros v; unfold sort_of, is_list; destruct v; cbn; split; intros H; try discriminate; eauto; destruct H as (? & H); discriminate).
  assert (S3 : forall v, sort_of [Cstr; Clist; Ctuple] v <-> is_str v \/ is_list v \/ is_tuple v) by (intros v; rewrite !sort_or, sort_str, SL, sort_tuple; reflexivity).
  assert (S2 : forall v, sort_of [Clist; Ctuple] v <-> is_list v \/ is_tuple v) by (intros v; rewrite !sort_or, SL, sort_tuple; reflexivity).
  assert (A : forall s, attrs_init designer_fields args kw = Ok s <-> callable designer_names args kw /\ set_fields designer_fields (combine designer_names args ++ kw) [] = Ok s /\ validate designer_fields s = Ok tt) by (intros s; apply attrs_ok).
  assert (V : callable designer_names args kw -> forall s, set_fields designer_fields (combine designer_names args ++ kw) [] = Ok s -> (validate designer_fields s = Ok tt <->
    (forall v, passed designer_names args kw "figsize" v -> is_tuple v) /\ (forall v, passed designer_names args kw "title_fontsize" v -> is_str v \/ is_int v \/ is_float v) /\ (forall v, passed designer_names args kw "text_fontsize" v -> is_str v \/ is_int v \/ is_float v) /\
    (forall v, passed designer_names args kw "legend" v -> is_str v) /\ (forall v, passed designer_names args kw "label" v -> is_str v \/ is_list v \/ is_tuple v) /\ (forall v, passed designer_names args kw "limits" v -> is_list v \/ is_tuple v) /\ (forall v, passed designer_names args kw "colormap" v -> v = OColormap))).
  { intros C s S. rewrite designer_set in S. injection S as <-. pose proof (fun k v => passed_get designer_names args kw k v (proj1 formatter_nodup) C) as G. fields.
    rewrite (sel_iff _ "figsize" _ _ _ _ sort_tuple (G _)), (sel_iff _ "title_fontsize" _ _ _ _ SF (G _)), (sel_iff _ "text_fontsize" _ _ _ _ SF (G _)), (sel_iff _ "legend" _ _ _ _ sort_str (G _)),
      (sel_iff _ "label" _ _ _ _ S3 (G _)), (sel_iff _ "limits" _ _ _ _ S2 (G _)), (sel_iff _ "colormap" _ _ _ _ sort_colormap (G _)) by reflexivity. split; [intros H; repeat split; apply H|intros H; repeat split; try apply H; apply Forall_nil]. }
  split.
  - intros (s & E). apply A in E. destruct E as (C & S & VA). split; [exact C|]. exact (proj1 (V C s S) VA).
  - intros (C & H). eexists. apply A. split; [exact C|]. rewrite designer_set. split; [reflexivity|]. apply V; [exact C|apply designer_set|exact H].
Qed.
Lemma animator_accepts : forall args kw, (exists s, attrs_init animator_fields args kw = Ok s) <-> callable animator_names args kw /\
  (forall v, passed animator_names args kw "interval" v -> is_int v) /\ (forall v, passed animator_names args kw "repeat" v -> is_bool v).
Proof.
  intros args kw.
  assert (A : forall s, attrs_init animator_fields args kw = Ok s <-> callable animator_names args kw /\ set_fields animator_fields (combine animator_names args ++ kw) [] = Ok s /\ validate animator_fields s = Ok tt) by (intros s; apply attrs_ok).
  assert (V : callable animator_names args kw -> forall s, set_fields animator_fields (combine animator_names args ++ kw) [] = Ok s -> (validate animator_fields s = Ok tt <->
    (forall v, passed animator_names args kw "interval" v -> is_int v) /\ (forall v, passed animator_names args kw "repeat" v -> is_bool v))).
  { intros C s S. rewrite animator_set in S. injection S as <-. pose proof (fun k v => passed_get animator_names args kw k v (proj1 (proj2 formatter_nodup)) C) as G. fields.
    rewrite (sel_iff _ "interval" _ _ _ _ sort_int (G _)), (sel_iff _ "repeat" _ _ _ _ sort_bool (G _)) by reflexivity. split; [intros H; split; apply H|intros [H1 H2]; split; [exact H1|split; [discriminate|split; [exact H2|apply Forall_nil]]]]. }
  split.
  - intros (s & E). apply A in E. destruct E as (C & S & VA). split; [exact C|]. exact (proj1 (V C s S) VA).
  - intros (C & H). eexists. apply A. split; [exact C|]. rewrite animator_set. split; [reflexivity|]. apply V; [exact C|apply animator_set|exact H].
Qed.
Lemma mesher_accepts : forall args kw, (exists s, attrs_init mesher_fields args kw = Ok s) <-> callable mesher_names args kw /\ (exists v, passed mesher_names args kw "func" v) /\
  (forall v, passed mesher_names args kw "limits" v -> is_list v \/ is_tuple v) /\ (forall v, passed mesher_names args kw "alpha" v -> is_float v).
Proof.
  intros args kw.
  assert (SL : forall v, sort_of [Clist] v <-> is_list v) by (intros v; unfold sort_of, is_list; destruct v; cbn; split; intros H; try discriminate; eauto; destruct H as (? & H); discriminate).
  assert (S2 : forall v, sort_of [Clist; Ctuple] v <-> is_list v \/ is_tuple v) by (intros v; rewrite !sort_or, SL, sort_tuple; reflexivity).
  assert (A : forall s, attrs_init mesher_fields args kw = Ok s <-> callable mesher_names args kw /\ set_fields mesher_fields (combine mesher_names args ++ kw) [] = Ok s /\ validate mesher_fields s = Ok tt) by (intros s; apply attrs_ok).
  assert (V : callable mesher_names args kw -> forall s, set_fields mesher_fields (combine mesher_names args ++ kw) [] = Ok s -> (validate mesher_fields s = Ok tt <->
    (forall v, passed mesher_names args kw "limits" v -> is_list v \/ is_tuple v) /\ (forall v, passed mesher_names args kw "alpha" v -> is_float v))).
  { intros C s S. rewrite mesher_set in S. destruct (dget (combine mesher_names args ++ kw) "func") as [f|]; [|discriminate]. injection S as <-. pose proof (fun k v => passed_get mesher_names args kw k v (proj2 (proj2 formatter_nodup)) C) as G. fields.
    rewrite (sel_iff _ "limits" _ _ _ _ S2 (G _)), (sel_iff _ "alpha" _ _ _ _ sort_float (G _)) by reflexivity.
    split; [intros (_ & _ & H1 & _ & H2 & _); auto|intros [H1 H2]; split; [discriminate|split; [discriminate|split; [exact H1|split; [discriminate|split; [exact H2|apply Forall_nil]]]]]]. }
  split.
  - intros (s & E). apply A in E. destruct E as (C & S & VA). split; [exact C|]. split; [|exact (proj1 (V C s S) VA)].
    rewrite mesher_set in S. destruct (dget (combine mesher_names args ++ kw) "func") as [f|] eqn:F; [|discriminate]. exists f. apply passed_get; [apply formatter_nodup|exact C|exact F].
  - intros (C & (f & F) & H). apply passed_get in F; [|apply formatter_nodup|exact C]. pose proof (mesher_set (combine mesher_names args ++ kw)) as S. rewrite F in S. eexists. apply A. split; [exact C|]. split; [exact S|]. apply (V C _ S). exact H.
Qed.
Lemma formatter_raises : forall args kw x, attrs_init designer_fields args kw = Err x \/ attrs_init animator_fields args kw = Err x \/ attrs_init mesher_fields args kw = Err x -> x = TypeError.
Proof.
  assert (A : forall fs args kw x, attrs_init fs args kw = Err x -> (forall g, exists s, set_fields fs g [] = Ok s \/ set_fields fs g [] = Err TypeError) -> x = TypeError).
  { intros fs args kw x E S. unfold attrs_init in E. destruct (bind_args _ args kw) as [g|]; [|congruence]. destruct (forallb _ fs); [|congruence]. destruct (S g) as (s & [SE|SE]); rewrite SE in E; cbn [bind] in E; [|congruence].
    destruct (validate fs s) as [u|y] eqn:V; [discriminate|]. apply validate_err in V. cbn [bind] in E. congruence. }
  intros args kw x [E|[E|E]]; apply (A _ _ _ _ E); intros g.
  - eexists. left. apply designer_set.
  - eexists. left. apply animator_set.
  - rewrite mesher_set. destruct (dget g "func"); [eexists; left; reflexivity|exists []; right; reflexivity].
Qed.
Lemma create_attributes : forall n d discrete binary o b center init clamp dr s ks, create_swarm n d discrete binary o b center init clamp dr = Ok s ->
  exists a, attrs_init swarm_fields [OArray [length (s_position s); s_d s]; OArray [length (s_velocity s); s_d s]] [("options", ODict ks)] = Ok a /\
    dget a "n_particles" = Some (OInt (Z.of_nat (s_n s))) /\ dget a "dimensions" = Some (OInt (Z.of_nat (s_d s))) /\ dget a "options" = Some (ODict ks) /\
    dget a "pbest_pos" = Some (OArray [length (s_pbest_pos s); s_d s]) /\ dget a "pbest_cost" = Some (OArray [length (s_pbest_cost s)]) /\
    dget a "best_cost" = Some (OFloat (s_best_cost s)) /\ dget a "current_cost" = Some (OArray [length (s_current_cost s)]).
Proof.
  intros n d discrete binary o b center init clamp dr s ks E. unfold create_swarm in E.
  match type of E with bind ?z _ = _ => destruct z as [pos|]; [|discriminate] end. cbn [bind] in E. destruct (generate_velocity d clamp (cd_vel dr)) as [vel|]; [|discriminate]. cbn [bind] in E.
  injection E as <-. eexists. split; [reflexivity|]. repeat split.
Qed.
