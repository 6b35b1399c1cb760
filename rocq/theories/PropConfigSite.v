(** C136: a server that is configured while it works: units and blocks come and go, starting from nothing.
    Vocabulary: BuiltSpec.v (the device), PropBuiltPlant.v (post, site, site_step, news, same_news, lawful), PropPlant.v (event, program_step, names_areas) and the definitions below. *)
From Coq Require Import ZArith Lia ZifyBool ZifyNat.
From Verif Require Import Base BaseFacts PyStruct Spec StructFacts StructMore Defines SlaveModel SlaveSpec SlaveProofs BlockSpec BlockProofs HandlerProofs RequestProofs GeneralProofs SlaveInv SlaveMore AtomicProofs PropSlave.
From Verif Require PropSharedMem PropMaint PropApart.
From Verif Require Import FrameSpec QueryModel DatabankModel MasterModel MasterSpec DbSpec DatabankProofs MasterProofs DecodeProofs EndSpec EndProofs PropDatabank PropMaster TransportSpec PropBroadcast DeviceSpec PropDevice PropPlant BuiltSpec PropBuilt PropBuiltPlant.
Ltac Zify.zify_post_hook ::= Z.div_mod_to_equations.
Open Scope string_scope.
Open Scope list_scope.
Open Scope Z_scope.

(** ** Spec *)
Inductive move :=
| Happens (e : event)                                                       (* a call, a broadcast, set_values, get_values *)
| AddUnit (u : Z) (unsigned : bool)                                         (* server.add_slave(u, unsigned) *)
| DropUnit (u : Z)                                                          (* server.remove_slave(u) *)
| DropUnits                                                                 (* server.remove_all_slaves() *)
| AddArea (u : Z) (name : string) (kind a n : Z)                            (* server.get_slave(u).add_block(name, kind, a, n) *)
| DropArea (u : Z) (name : string)                                          (* server.get_slave(u).remove_block(name) *)
| DropAreas (u : Z).                                                        (* server.get_slave(u).remove_all_blocks() *)
Inductive notice := News (y : news) | Said (r : res unit).
Definition set_post (w : site) (u : Z) (o : option post) : site := fun v => if v =? u then o else w v.
(** a unit that has just been added: no areas *)
Definition empty_post (unsigned : bool) : post :=
  {| po_built := {| bt_device := {| dv_areas := fun _ => []; dv_cell := fun _ _ => 0 |}; bt_signed := negb unsigned; bt_odd := fun _ _ => false |}; po_area := fun _ => None |}.
Definition with_areas (b : built) (t : btype) (l : list (Z * Z)) : built :=
  {| bt_device := {| dv_areas := fun t' => if same_type t t' then l else dv_areas (bt_device b) t'; dv_cell := dv_cell (bt_device b) |}; bt_signed := bt_signed b; bt_odd := bt_odd b |}.
(** a new area is full of zeros *)
Definition new_area (x : post) (name : string) (t : btype) (a n : Z) : post :=
  {| po_built := with_areas (BuiltSpec.store (po_built x) t a (repeat 0 (Z.to_nat n)) false) t ((a, n) :: dv_areas (bt_device (po_built x)) t);
     po_area := fun k => if String.eqb k name then Some (t, a, n) else po_area x k |}.
Definition drop_area (x : post) (name : string) (t : btype) (a : Z) : post :=
  {| po_built := with_areas (po_built x) t (filter (fun z => negb (fst z =? a)) (dv_areas (bt_device (po_built x)) t));
     po_area := fun k => if String.eqb k name then None else po_area x k |}.
Definition site_move (w : site) (m : move) : site * notice :=
  match m with
  | Happens e => let '(w', y) := site_step w e in (w', News y)
  | AddUnit u unsigned =>
      if (1 <=? u) && (u <=? 255) then
        match w u with Some _ => (w, Said (Err DuplicatedKeyError)) | None => (set_post w u (Some (empty_post unsigned)), Said (Ok tt)) end
      else (w, Said (Err GenericException))
  | DropUnit u => match w u with Some _ => (set_post w u None, Said (Ok tt)) | None => (w, Said (Err MissingKeyError)) end
  | DropUnits => (fun _ => None, Said (Ok tt))
  | AddArea u name kind a n =>
      match w u with
      | None => (w, Said (Err MissingKeyError))
      | Some x =>
          if (n <=? 0) || (a <? 0) then (w, Said (Err InvalidArgumentError))
          else match po_area x name with
               | Some _ => (w, Said (Err DuplicatedKeyError))
               | None => match btype_of_Z kind with
                         | None => (w, Said (Err InvalidModbusBlockError))
                         | Some t => (set_post w u (Some (new_area x name t a n)), Said (Ok tt))
                         end
               end
      end
  | DropArea u name =>
      match w u with
      | None => (w, Said (Err MissingKeyError))
      | Some x => match po_area x name with
                  | None => (w, Said (Err MissingKeyError))
                  | Some (t, a, _) => (set_post w u (Some (drop_area x name t a)), Said (Ok tt))
                  end
      end
  | DropAreas u =>
      match w u with
      | None => (w, Said (Err MissingKeyError))
      | Some x => (set_post w u (Some (empty_post (negb (bt_signed (po_built x))))), Said (Ok tt))
      end
  end.
Fixpoint site_moves (w : site) (l : list move) : site * list notice :=
  match l with [] => (w, []) | m :: l => let '(w1, y) := site_move w m in let '(w2, ys) := site_moves w1 l in (w2, y :: ys) end.
(** a block that is added has no address in common with the areas of its table (C01: add_block does not refuse every such block) *)
Definition lawful_move (p : proto) (w : site) (m : move) : Prop :=
  match m with
  | Happens e => lawful p e
  | AddArea u name kind a n => forall x t, w u = Some x -> btype_of_Z kind = Some t -> forall z, In z (dv_areas (bt_device (po_built x)) t) -> a + n <= fst z \/ fst z + snd z <= a
  | _ => True
  end.
Fixpoint lawful_moves (p : proto) (w : site) (l : list move) : Prop :=
  match l with [] => True | m :: l => lawful_move p w m /\ lawful_moves p (fst (site_move w m)) l end.

(** ** The same moves in the program: Databank of modbus.py 897-985, Slave of 696-895 *)
Inductive seen := Saw (x : effect) | Returned (r : res unit).
Definition program_move (p : proto) (last : Z) (d : databank) (m : move) : databank * Z * seen :=
  match m with
  | Happens e => let '(d', last', x) := program_step p last d e in (d', last', Saw x)
  | AddUnit u unsigned => let '(d', r) := add_slave d u unsigned None in (d', last, Returned r)
  | DropUnit u => let '(d', r) := remove_slave d u in (d', last, Returned r)
  | DropUnits => (remove_all_slaves d, last, Returned (Ok tt))
  | AddArea u name kind a n => match get_slave d u with Err e => (d, last, Returned (Err e)) | Ok s => let '(s', r) := add_block s name kind a n in (put_slave d u s', last, Returned r) end
  | DropArea u name => match get_slave d u with Err e => (d, last, Returned (Err e)) | Ok s => let '(s', r) := remove_block s name in (put_slave d u s', last, Returned r) end
  | DropAreas u => match get_slave d u with Err e => (d, last, Returned (Err e)) | Ok s => (put_slave d u (remove_all_blocks s), last, Returned (Ok tt)) end
  end.
Fixpoint program_moves (p : proto) (last : Z) (d : databank) (l : list move) : databank * list seen :=
  match l with [] => (d, []) | m :: l => let '(d1, last1, y) := program_move p last d m in let '(d2, ys) := program_moves p last1 d1 l in (d2, y :: ys) end.
Definition same_notice (x : seen) (y : notice) : Prop :=
  match y with News y => exists e, x = Saw e /\ same_news e y | Said r => x = Returned r end.
(** the device shows the slave (the order of the areas does not matter) *)
Definition displays (s : slave) (b : built) : Prop :=
  (forall t z, In z (dv_areas (bt_device b) t) <-> In z (map (fun c => (b_start c, b_size c)) (blocks s t))) /\
  (forall t c a v, In c (blocks s t) -> cell c a = Some v -> dv_cell (bt_device b) t a = shown t v) /\
  bt_signed b = negb (sl_unsigned s) /\
  (forall t c a v, In c (blocks s t) -> cell c a = Some v -> is_register t = true -> (bt_odd b t a = false <-> fits (sl_unsigned s) v)).
(** no two names for the same area *)
Definition one_name (x : post) : Prop := forall k k' t a n n', po_area x k = Some (t, a, n) -> po_area x k' = Some (t, a, n') -> k = k'.
Definition runs_as (d : databank) (w : site) : Prop :=
  forall v, match w v with
    | Some x => exists s, get_slave d v = Ok s /\ plain s /\ displays s (po_built x) /\ names_areas s (po_area x) /\ one_name x
    | None => get_slave d v = Err MissingKeyError
    end.

(** ** The order of the areas does not matter *)
Definition same_built (b b' : built) : Prop :=
  (forall t z, In z (dv_areas (bt_device b) t) <-> In z (dv_areas (bt_device b') t)) /\ (forall t a, dv_cell (bt_device b) t a = dv_cell (bt_device b') t a) /\
  bt_signed b = bt_signed b' /\ (forall t a, bt_odd b t a = bt_odd b' t a).
Lemma existsb_same {A} (f : A -> bool) l l' : (forall z, In z l <-> In z l') -> existsb f l = existsb f l'.
Proof.
  intros H. destruct (existsb f l) eqn:E, (existsb f l') eqn:E'; auto.
  - apply existsb_exists in E as (z & I & F). rewrite <- E'. symmetry. apply existsb_exists. exists z. split; [now apply H|exact F].
  - apply existsb_exists in E' as (z & I & F). rewrite <- E. apply existsb_exists. exists z. split; [now apply H|exact F].
Qed.
Lemma existsb_ext' {A} (f g : A -> bool) l : (forall z, f z = g z) -> existsb f l = existsb g l.
Proof. intros H. induction l as [|x l IH]; [reflexivity|]. cbn. now rewrite H, IH. Qed.
Section Same.
Context (b b' : built) (S : same_built b b').
Lemma sb_present t a n : present (bt_device b) t a n = present (bt_device b') t a n.
Proof. apply existsb_same. apply S. Qed.
Lemma sb_read t a n : read_cells (bt_device b) t a n = read_cells (bt_device b') t a n.
Proof. apply map_ext. intros k. apply S. Qed.
Lemma sb_odd t a n : odd_in b t a n = odd_in b' t a n.
Proof. apply existsb_ext'. intros k. apply S. Qed.
Lemma sb_store t a vals odd : same_built (BuiltSpec.store b t a vals odd) (BuiltSpec.store b' t a vals odd).
Proof.
  destruct S as (A & C & G & O). split; [exact A|]. split; [|split; [exact G|]]; intros t' x; cbn; destruct (same_type t t' && (a <=? x) && (x <? a + zlen vals)); auto.
Qed.
Lemma sb_store_any t a vals : same_built (store_any b t a vals) (store_any b' t a vals).
Proof.
  destruct S as (A & C & G & O). split; [exact A|]. split; [|split; [exact G|]]; intros t' x; cbn; [destruct (same_type t t' && (a <=? x) && (x <? a + zlen (map (shown t) vals))); auto|]. rewrite G. destruct (same_type t t' && (a <=? x) && (x <? a + zlen vals)); auto.
Qed.
Definition same_end (x y : built * BuiltSpec.outcome) : Prop := same_built (fst x) (fst y) /\ snd x = snd y.
Lemma sb_guard t a n limit x y : same_end x y -> same_end (BuiltSpec.guard b t a n limit x) (BuiltSpec.guard b' t a n limit y).
Proof.
  intros H. unfold BuiltSpec.guard. rewrite sb_present. destruct ((1 <=? n) && (n <=? limit)); [destruct (present (bt_device b') t a n); [exact H|]|]; (split; [exact S|reflexivity]).
Qed.
Lemma sb_call c : same_end (built_call b c) (built_call b' c).
Proof.
  assert (ID : forall o, same_end (b, o) (b', o)) by (intros o; split; [exact S|reflexivity]).
  assert (ST : forall t a vals odd o, same_end (BuiltSpec.store b t a vals odd, o) (BuiltSpec.store b' t a vals odd, o)) by (intros; split; [apply sb_store|reflexivity]).
  destruct c; cbn [built_call]; try apply ID; try (apply sb_guard; apply ST).
  - apply sb_guard. rewrite sb_read. apply ID.
  - apply sb_guard. rewrite sb_odd, sb_read. destruct (odd_in _ _ _ _); apply ID.
  - apply sb_guard. pose proof S as (_ & C & G & _). rewrite G, C. apply ST.
  - apply sb_guard. rewrite sb_odd. destruct (odd_in _ _ _ _); [apply ID|]. apply sb_guard. rewrite sb_read. apply ST.
Qed.
End Same.
Definition like (w w' : site) : Prop :=
  forall v, match w v, w' v with Some x, Some y => same_built (po_built x) (po_built y) /\ po_area y = po_area x | None, None => True | _, _ => False end.
Lemma like_step w w' e : like w w' -> like (fst (site_step w e)) (fst (site_step w' e)) /\ snd (site_step w e) = snd (site_step w' e).
Proof.
  intros L. destruct e as [u c|c|u name a v|u name a n]; cbn [site_step].
  - pose proof (L u) as U. destruct (w u) as [x|] eqn:X, (w' u) as [y|] eqn:Y; try contradiction; cbn [fst snd]; [|auto]. destruct U as (B & A). destruct (sb_call _ _ B c) as (E1 & E2). split; [|now rewrite E2].
    intros v. destruct (v =? u); [auto|apply L].
  - cbn [fst snd]. split; [|reflexivity]. intros v. specialize (L v). destruct (w v) as [x|], (w' v) as [y|]; try contradiction; auto. destruct L as (B & A). split; [apply (sb_call _ _ B c)|exact A].
  - pose proof (L u) as U. destruct (w u) as [x|] eqn:X, (w' u) as [y|] eqn:Y; try contradiction; cbn [fst snd]; [|auto]. destruct U as (B & A). rewrite A. destruct (po_area x name) as [[[t first] size]|]; [|auto]. destruct (_ && _); [|auto].
    cbn [fst snd]. split; [|reflexivity]. intros z. destruct (z =? u); [|apply L]. split; [now apply sb_store_any|reflexivity].
  - pose proof (L u) as U. destruct (w u) as [x|] eqn:X, (w' u) as [y|] eqn:Y; try contradiction; cbn [fst snd]; [|auto]. destruct U as (B & A). rewrite A. destruct (po_area x name) as [[[t first] size]|]; [|auto]. destruct (_ && _); cbn [fst snd]; [|auto].
    split; [exact L|]. now rewrite (sb_read _ _ B).
Qed.
Definition in_order (s : slave) (b : built) : built :=
  {| bt_device := {| dv_areas := fun t => map (fun c => (b_start c, b_size c)) (blocks s t); dv_cell := dv_cell (bt_device b) |}; bt_signed := bt_signed b; bt_odd := bt_odd b |}.
Lemma in_order_same s b : displays s b -> same_built b (in_order s b) /\ pictures s (in_order s b).
Proof. intros (A & C & G & O). split; [split; [exact A|]; repeat split|]. split; [split; [reflexivity|exact C]|]. split; [exact G|exact O]. Qed.
Lemma displays_of s b b' : same_built b b' -> pictures s b' -> displays s b.
Proof.
  intros (A & C & G & O) ((M1 & M2) & P2 & P3). split; [intros t z; rewrite A, M1; reflexivity|]. split; [intros t c a v I V; rewrite C; eauto|]. split; [now rewrite G|]. intros t c a v I V R. rewrite O. eauto.
Qed.
Definition ordered (d : databank) (w : site) : site :=
  fun v => match w v, get_slave d v with Some x, Ok s => Some {| po_built := in_order s (po_built x); po_area := po_area x |} | _, _ => None end.
Lemma ordered_ok d w : runs_as d w -> stages d (ordered d w) /\ like w (ordered d w).
Proof.
  intros H. split; intros v; specialize (H v); unfold ordered; destruct (w v) as [x|]; auto; destruct H as (s & G & P & D & N & _); rewrite G.
  - exists s. split; [reflexivity|]. split; [exact P|]. split; [now apply in_order_same|exact N].
  - split; [now apply in_order_same|reflexivity].
Qed.
Lemma site_names w e v : match fst (site_step w e) v with Some x => exists y, w v = Some y /\ po_area x = po_area y | None => w v = None end.
Proof.
  assert (ID : match w v with Some x => exists y, w v = Some y /\ po_area x = po_area y | None => w v = None end) by (destruct (w v); eauto).
  destruct e as [u c|c|u name a z|u name a n]; cbn [site_step].
  - destruct (w u) as [x|] eqn:X; cbn [fst]; [|exact ID]. destruct (v =? u) eqn:E; [|exact ID]. replace v with u by lia. rewrite X. eexists. split; reflexivity.
  - cbn [fst]. destruct (w v) as [x|]; [eexists; split; reflexivity|reflexivity].
  - destruct (w u) as [x|] eqn:X; cbn [fst]; [|exact ID]. destruct (po_area x name) as [[[t first] size]|]; [|exact ID]. destruct (_ && _); [|exact ID]. cbn [fst]. destruct (v =? u) eqn:E; [|exact ID]. replace v with u by lia. rewrite X. eexists. split; reflexivity.
  - destruct (w u) as [x|] eqn:X; cbn [fst]; [|exact ID]. destruct (po_area x name) as [[[t first] size]|]; [|exact ID]. destruct (_ && _); exact ID.
Qed.

Lemma names_nodup s : reachable s -> NoDup (map fst (sl_names s)).
Proof.
  intros (s0 & ops & F & ->). assert (N0 : NoDup (map fst (sl_names s0))) by (destruct F; constructor). assert (W0 : wf_slave s0) by (apply reachable_wf; exists s0, []; auto).
  assert (ST : forall s o, wf_slave s -> NoDup (map fst (sl_names s)) -> NoDup (map fst (sl_names (fst (slave_step s o))))).
  { intros s o W N. destruct o as [n k a z|n| |n a v|n a z|pdu bc]; cbn [slave_step].
    - destruct (add_block s n k a z) as [s' r] eqn:E; cbn [fst]. destruct r as [[]|e]; [|apply add_block_err in E as ->; exact N].
      apply add_block_ok in E as (t & l1 & l2 & _ & _ & NA & _ & _ & _ & _ & _ & ->). rewrite mem_set_names. now apply PropSharedMem.put_nodup.
    - destruct (PropMaint.remove_cases s n) as [(e & ->)|(t & l1 & b & l2 & _ & ->)]; cbn [fst]; [exact N|]. rewrite mem_set_names. now apply del_nodup.
    - constructor.
    - destruct (PropApart.set_cases s n a v W) as [(e & ->)|(t & start & l1 & b & l2 & _ & _ & _ & _ & ->)]; cbn [fst]; [exact N|]. now rewrite mem_set_names.
    - exact N.
    - pose proof (hr_state s pdu bc W) as Hs. destruct (handle_request s pdu bc) as [s1 r]. cbn [fst] in *. destruct Hs as [-> | (fc & rest & t & a & n & vals & _ & Wr & (l1 & b & l2 & T & Sv & Lv & ->) & _)]; [exact N|]. now rewrite mem_set_names. }
  revert s0 F N0 W0. induction ops as [|o ops IH] using rev_ind; intros s0 F N0 W0; [exact N0|]. unfold slave_run in *. rewrite fold_left_app. cbn [fold_left]. apply ST; [|now apply IH].
  apply reachable_wf. exists s0, ops. auto.
Qed.

(** ** One move *)
Definition move_well (p : proto) (last : Z) (d : databank) (w : site) (m : move) : Prop :=
  let '(d', last', y) := program_move p last d m in
  same_notice y (snd (site_move w m)) /\ runs_as d' (fst (site_move w m)) /\ db_reachable d' /\ 0 <= last' <= 65535.
Lemma reach_step d o : db_reachable d -> sane_op o -> db_reachable (db_step d o).
Proof.
  intros (e & ops & S0 & ->) S1. exists e, (ops ++ [o]). split; [apply Forall_app; split; [exact S0|constructor; [exact S1|constructor]]|]. unfold db_run. now rewrite fold_left_app.
Qed.
Section Moves.
Context (p : proto) (last : Z) (d : databank) (w : site).
Context (T : 0 <= last <= 65535) (D : db_reachable d) (P : runs_as d w).
Lemma move_event e : lawful p e -> move_well p last d w (Happens e).
Proof.
  intros F. destruct (ordered_ok d w P) as (P' & L). destruct (like_step w (ordered d w) e L) as (L' & Y).
  assert (S : step_well p last d (ordered d w) e) by (destruct e; [apply well_ask|apply well_announce|apply well_store|apply well_fetch]; auto).
  unfold step_well in S. unfold move_well. cbn [program_move site_move]. pose proof (site_names w e) as SN. destruct (program_step p last d e) as [[d1 last1] y]. destruct S as (S1 & S2 & S3 & S4). rewrite <- Y in S1.
  destruct (site_step w e) as [w1 y1]. cbn [fst snd] in *. split; [exists y; auto|]. split; [|auto].
  intros v. specialize (S2 v). specialize (L' v). specialize (SN v). specialize (P v). destruct (w1 v) as [x|]; destruct (fst (site_step (ordered d w) e) v) as [x'|]; try contradiction; [|exact S2].
  destruct SN as (y0 & W0 & A0). rewrite W0 in P. destruct P as (s0 & _ & _ & _ & _ & ON). destruct S2 as (s & G & PL & PI & NA). destruct L' as (B & A). exists s. split; [exact G|]. split; [exact PL|]. split; [eapply displays_of; eauto|].
  split; [now rewrite <- A|]. unfold one_name in *. now rewrite A0.
Qed.
Lemma new_shows unsigned : plain (new_slave unsigned None) /\ displays (new_slave unsigned None) (po_built (empty_post unsigned)) /\ names_areas (new_slave unsigned None) (po_area (empty_post unsigned)) /\ one_name (empty_post unsigned).
Proof.
  split; [|split; [|split]].
  - split; [intros []; discriminate|]. split; [intros [] []; try reflexivity; discriminate|]. intros t. replace (blocks (new_slave unsigned None) t) with (@nil block) by (now destruct t). apply disjoint_nil.
  - assert (N : forall t, blocks (new_slave unsigned None) t = []) by (now intros []). split; [intros t z; rewrite N; reflexivity|]. split; [intros t c a v I; rewrite N in I; destruct I|]. split; [reflexivity|]. intros t c a v I. rewrite N in I. destruct I.
  - intros name. cbn. unfold registered. cbn. congruence.
  - intros k k' t a n n' X. discriminate X.
Qed.
Lemma add_unit u unsigned : move_well p last d w (AddUnit u unsigned).
Proof.
  unfold move_well. cbn [program_move site_move]. pose proof (reach_step d (DbAdd u unsigned None) D Logic.I) as R. cbn [db_step] in R. pose proof (P u) as PU. unfold add_slave in *.
  destruct ((u <=? 0) || (255 <? u)) eqn:E.
  - replace ((1 <=? u) && (u <=? 255)) with false by lia. cbn [fst snd same_notice]. auto.
  - replace ((1 <=? u) && (u <=? 255)) with true by lia. unfold get_slave in PU. destruct (w u) as [x|] eqn:W.
    + destruct PU as (s & G & _). destruct (assoc Z.eqb u (db_slaves d)); [|discriminate G]. cbn [fst snd same_notice]. auto.
    + destruct (assoc Z.eqb u (db_slaves d)); [discriminate PU|]. cbn [fst snd same_notice] in *. split; [reflexivity|]. split; [|auto]. change (with_slaves d (assoc_put Z.eqb u (new_slave unsigned None) (db_slaves d))) with (put_slave d u (new_slave unsigned None)).
      intros v. unfold set_post. destruct (v =? u) eqn:V.
      * replace v with u by lia. exists (new_slave unsigned None). split; [apply get_slave_put_same|]. apply new_shows.
      * rewrite get_slave_put_other by lia. apply P.
Qed.
Lemma del_gone {V} k (l : list (Z * V)) : NoDup (map fst l) -> assoc Z.eqb k (assoc_del Z.eqb k l) = None.
Proof.
  induction l as [|[j v] l IH]; [reflexivity|]. intros N. inversion N as [|? ? N1 N2]; subst. cbn. destruct (k =? j) eqn:E; [replace k with j by lia; now apply zassoc_none|]. cbn. rewrite E. now apply IH.
Qed.
Lemma drop_unit u : move_well p last d w (DropUnit u).
Proof.
  unfold move_well. cbn [program_move site_move]. pose proof (reach_step d (DbRemove u) D Logic.I) as R. cbn [db_step] in R. pose proof (P u) as PU. unfold remove_slave in *. unfold get_slave in PU. destruct (w u) as [x|] eqn:W.
  - destruct PU as (s & G & _). destruct (assoc Z.eqb u (db_slaves d)); [|discriminate G]. cbn [fst snd same_notice] in *. split; [reflexivity|]. split; [|auto]. pose proof (db_reachable_inv d D) as (ND & _ & _).
    intros v. unfold set_post. specialize (P v). destruct (v =? u) eqn:V.
    + replace v with u by lia. unfold get_slave. cbn. now rewrite (del_gone u _ ND).
    + unfold get_slave in *. cbn [db_slaves with_slaves]. rewrite zassoc_del_other by lia. exact P.
  - destruct (assoc Z.eqb u (db_slaves d)); [discriminate PU|]. cbn [fst snd same_notice]. auto.
Qed.
Lemma drop_units : move_well p last d w DropUnits.
Proof.
  unfold move_well. cbn [program_move site_move fst snd same_notice]. pose proof (reach_step d DbRemoveAll D Logic.I) as R. cbn [db_step] in R. split; [reflexivity|]. split; [|auto]. intros v. reflexivity.
Qed.
(** the unit [u] becomes [s'] *)
Lemma one_unit u s' x' : plain s' -> displays s' (po_built x') -> names_areas s' (po_area x') -> one_name x' -> runs_as (put_slave d u s') (set_post w u (Some x')).
Proof.
  intros A B C E v. unfold set_post. destruct (v =? u) eqn:V; [replace v with u by lia; exists s'; split; [apply get_slave_put_same|auto]|]. rewrite get_slave_put_other by lia. apply P.
Qed.
Lemma no_change u s : get_slave d u = Ok s -> runs_as (put_slave d u s) w.
Proof. intros G v. rewrite (get_slave_put_id d u s G v). apply P. Qed.
Lemma drop_areas u : move_well p last d w (DropAreas u).
Proof.
  unfold move_well. cbn [program_move site_move]. pose proof (P u) as PU. pose proof (reach_step d (DbCall u OpRemoveAll) D Logic.I) as R. cbn [db_step slave_step fst] in R. destruct (w u) as [x|] eqn:W.
  - destruct PU as (s & G & (T1 & T2 & T3) & (_ & _ & SG & _) & _ & _). rewrite G in *. cbn [fst snd same_notice]. split; [reflexivity|]. split; [|auto].
    assert (AL : sl_alias (remove_all_blocks s) = own_lists).
    { pose proof (T1 COILS) as X1. pose proof (T1 DISCRETE_INPUTS) as X2. pose proof (T1 HOLDING_REGISTERS) as X3. pose proof (T1 ANALOG_INPUTS) as X4. unfold has_table in *. cbn [remove_all_blocks sl_alias].
      destruct (get4 (sl_alias s) COILS); [|congruence]. destruct (get4 (sl_alias s) DISCRETE_INPUTS); [|congruence]. destruct (get4 (sl_alias s) HOLDING_REGISTERS); [|congruence]. destruct (get4 (sl_alias s) ANALOG_INPUTS); [|congruence]. reflexivity. }
    assert (N : forall t, blocks (remove_all_blocks s) t = []) by (intros t; unfold blocks; rewrite AL; now destruct t).
    apply one_unit.
    + split; [|split].
      * intros t. unfold has_table. rewrite AL. destruct t; discriminate.
      * intros t t' E. unfold same_table in E. rewrite AL in E. destruct t, t'; try reflexivity; discriminate E.
      * intros t. rewrite N. apply disjoint_nil.
    + split; [intros t z; rewrite N; reflexivity|]. split; [intros t c a v I; rewrite N in I; destruct I|]. split; [cbn; rewrite SG; now rewrite negb_involutive|]. intros t c a v I. rewrite N in I. destruct I.
    + intros name. cbn. unfold registered. cbn. congruence.
    + intros k k' t a n n' X. discriminate X.
  - rewrite PU. cbn [fst snd same_notice]. auto.
Qed.
(** names and blocks when the blocks of one table lie apart *)
Lemma denotes_in s name t b : wf_slave s -> plain s -> (denotes s name t b <-> named s name t (b_start b) /\ In b (blocks s t)).
Proof.
  intros WF (_ & _ & DJ). split.
  - intros (N & l1 & l2 & E & _). split; [exact N|]. rewrite E. apply in_elt.
  - intros (N & I). split; [exact N|]. apply in_split in I as (l1 & l2 & E). exists l1, l2. split; [exact E|]. intros c I X.
    pose proof (disjoint_starts (blocks s t) (WF t) (DJ t)) as ND. rewrite E, map_app in ND. cbn [map] in ND. apply NoDup_remove_2 in ND. apply ND. apply in_or_app. left. rewrite <- X. now apply in_map.
Qed.
Lemma unregistered s x name : names_areas s (po_area x) -> (po_area x name = None <-> assoc String.eqb name (sl_names s) = None).
Proof.
  intros A. specialize (A name). destruct (po_area x name) as [[[t f] n]|] eqn:E; [|split; [intros _; unfold registered in A; destruct (assoc String.eqb name (sl_names s)); [exfalso; apply A; discriminate|reflexivity]|reflexivity]].
  destruct A as (b & (N & _) & _). unfold named in N. rewrite N. split; discriminate.
Qed.
Lemma drop_area_well u name : move_well p last d w (DropArea u name).
Proof.
  unfold move_well. cbn [program_move site_move]. pose proof (P u) as PU. pose proof (reach_step d (DbCall u (OpRemoveBlock name)) D Logic.I) as R. cbn [db_step slave_step] in R. destruct (w u) as [x|] eqn:W; [|rewrite PU; cbn [fst snd same_notice]; auto].
  destruct PU as (s & G & PL & (DA & DC & DS & DO) & NA & ON). rewrite G in *. destruct (db_reachable_slave d u s D G) as [RS U]. pose proof (reachable_wf s RS) as WF. pose proof (unregistered s x name NA) as UR.
  destruct (po_area x name) as [[[t a] n]|] eqn:AR.
  - pose proof (NA name) as A. rewrite AR in A. destruct A as (b & DB & B1 & B2). destruct (denotes_names' s name t b PL DB) as (l1 & l2 & NB). rewrite (remove_block_ok _ _ _ _ _ _ NB) in *. cbn [fst snd same_notice] in *. split; [reflexivity|]. split; [|auto].
    pose proof NB as (st & N0 & HT & E & B3 & B4). set (s1 := with_names s _) in *. assert (HT1 : has_table s1 t) by exact HT. set (s' := mem_set s1 t (l1 ++ l2)) in *.
    destruct PL as (T1 & T2 & T3). pose proof (conj T1 (conj T2 T3) : plain s) as PL.
    assert (BT : blocks s' t = l1 ++ l2) by (apply blocks_mem_set; [exact HT1|reflexivity]).
    assert (BO : forall t', t' <> t -> blocks s' t' = blocks s t') by (intros t' X; unfold s'; rewrite blocks_mem_set_other; [reflexivity|]; intros Y; apply X; symmetry; now apply T2).
    assert (SUB : forall t' c, In c (blocks s' t') -> In c (blocks s t')).
    { intros t' c I. destruct (btype_eq_dec t' t) as [->|X]; [|now rewrite <- BO]. rewrite BT in I. rewrite E. apply in_app_or in I as [I|I]; apply in_or_app; [now left|right; now right]. }
    assert (ND : NoDup (map b_start (blocks s t))) by (apply disjoint_starts; [apply WF|apply T3]). rewrite E, map_app in ND. cbn [map] in ND. apply NoDup_remove_2 in ND. rewrite <- map_app in ND.
    assert (KEEP : forall c, In c (blocks s t) -> b_start c <> b_start b -> In c (l1 ++ l2)).
    { intros c I X. rewrite E in I. apply in_app_or in I as [I|[I|I]]; [apply in_or_app; now left|congruence|apply in_or_app; now right]. }
    assert (UN : sl_unsigned s' = sl_unsigned s) by (unfold s'; now rewrite mem_set_unsigned).
    assert (NM : forall k, assoc String.eqb k (sl_names s') = assoc String.eqb k (assoc_del String.eqb name (sl_names s))) by (intros k; unfold s'; now rewrite mem_set_names).
    assert (PL' : plain s').
    { split; [intros t'; unfold has_table, s'; rewrite mem_set_alias; apply T1|]. split; [intros t1 t2; unfold same_table, s'; rewrite mem_set_alias; apply T2|]. intros t'. destruct (btype_eq_dec t' t) as [->|X]; [|rewrite BO by exact X; apply T3].
      rewrite BT. specialize (T3 t). rewrite E, disjoint_FOP in *. now apply FOP_insert in T3. }
    assert (WF' : wf_slave s') by (intros t'; apply Forall_forall; intros c I; specialize (WF t'); rewrite Forall_forall in WF; apply WF; now apply SUB).
    apply one_unit; [exact PL'| | |].
    + split; [|split; [intros t' c y v I; apply DC; now apply SUB|split; [rewrite UN; exact DS|intros t' c y v I; rewrite UN; apply DO; now apply SUB]]].
      intros t' z. cbn. destruct (same_type t t') eqn:Q.
      * apply same_type_iff in Q. subst t'. rewrite filter_In, DA, BT. split.
        -- intros (I & F). apply in_map_iff in I as (c & <- & I). cbn [fst] in F. apply in_map_iff. exists c. split; [reflexivity|]. apply KEEP; [exact I|lia].
        -- intros I. apply in_map_iff in I as (c & <- & I). split; [apply in_map_iff; exists c; split; [reflexivity|apply SUB; now rewrite BT]|]. cbn [fst]. assert (b_start c <> b_start b) by (intros X; apply ND; rewrite <- X; now apply in_map). lia.
      * rewrite DA, BO; [reflexivity|]. intros ->. assert (X : same_type t t = true) by (now apply same_type_iff). congruence.
    + intros k. cbn. destruct (String.eqb k name) eqn:Q.
      * apply String.eqb_eq in Q as ->. unfold registered. rewrite NM. intros X. apply X. apply assoc_del_same. now apply names_nodup.
      * apply String.eqb_neq in Q. pose proof (NA k) as A. destruct (po_area x k) as [[[t1 a1] n1]|] eqn:AK.
        -- destruct A as (c & DN & C1 & C2). exists c. split; [|auto]. apply denotes_in in DN as (DN1 & DN2); auto. apply denotes_in; auto. split; [unfold named in *; rewrite NM, assoc_del_other; auto|].
           destruct (btype_eq_dec t1 t) as [->|X]; [|now rewrite BO]. rewrite BT. apply KEEP; [exact DN2|]. intros X. apply Q. apply (ON k name t a n1 n); [|exact AR]. rewrite AK. repeat f_equal. lia.
        -- unfold registered in *. rewrite NM, assoc_del_other; auto.
    + intros k k' t1 a1 n1 n2. cbn. destruct (String.eqb k name); [discriminate|]. destruct (String.eqb k' name); [discriminate|]. apply ON.
  - destruct UR as (UR & _). specialize (UR eq_refl). destruct (unknown_name s name UR) as (_ & _ & UN). rewrite UN in *. cbn [fst snd same_notice]. split; [reflexivity|]. split; [now apply no_change|auto].
Qed.
Lemma add_result s x name kind a n : wf_slave s -> plain s -> displays s (po_built x) -> names_areas s (po_area x) ->
  (forall t, btype_of_Z kind = Some t -> forall z, In z (dv_areas (bt_device (po_built x)) t) -> a + n <= fst z \/ fst z + snd z <= a) ->
  snd (add_block s name kind a n) = (if (n <=? 0) || (a <? 0) then Err InvalidArgumentError else match po_area x name with Some _ => Err DuplicatedKeyError | None => match btype_of_Z kind with None => Err InvalidModbusBlockError | Some _ => Ok tt end end).
Proof.
  intros WF PL (DA & _) NA FR. pose proof (unregistered s x name NA) as UR. destruct (add_block s name kind a n) as [s' r] eqn:E. cbn [snd].
  destruct ((n <=? 0) || (a <? 0)) eqn:Z0; [unfold add_block in E; destruct (n <=? 0); [congruence|]; destruct (a <? 0); [congruence|discriminate Z0]|].
  assert (E' : r = Err OverlapModbusBlockError -> False).
  { intros ->. destruct (add_block_overlap_real s name kind a n s' WF E) as (t & K & b & y & I & H & Y). specialize (FR t K (b_start b, b_size b)). rewrite DA in FR. specialize (FR ltac:(apply in_map_iff; eauto)). cbn [fst snd] in FR. unfold holds in H. lia. }
  unfold add_block in E. replace (n <=? 0) with false in E by lia. replace (a <? 0) with false in E by lia.
  destruct (po_area x name) as [v|].
  - destruct (assoc String.eqb name (sl_names s)); [congruence|]. destruct UR as (_ & UR). specialize (UR eq_refl). discriminate UR.
  - destruct UR as (UR & _). rewrite UR in E by reflexivity. destruct (btype_of_Z kind) as [t|]; [|congruence]. rewrite (mem_get_ok s t (proj1 PL t)) in E. destruct (add_block_scan _ _ _ _) as [i|e] eqn:Q; [congruence|].
    exfalso. apply E'. injection E as _ <-. clear - Q. revert Q. generalize 0%nat. induction (blocks s t) as [|c l IH]; intros k; cbn; [discriminate|]. destruct (is_in c a n); [congruence|]. destruct (a <? b_start c); [discriminate|]. apply IH.
Qed.
Lemma nth_zeros (k : nat) n : nth k (repeat 0 n) 0 = 0.
Proof. revert k. induction n as [|n IH]; intros [|k]; cbn; auto. Qed.
Lemma add_area_well u name kind a n : lawful_move p w (AddArea u name kind a n) -> move_well p last d w (AddArea u name kind a n).
Proof.
  intros FR. cbn [lawful_move] in FR. unfold move_well. cbn [program_move site_move]. pose proof (P u) as PU. pose proof (reach_step d (DbCall u (OpAddBlock name kind a n)) D Logic.I) as R. cbn [db_step slave_step] in R.
  destruct (w u) as [x|] eqn:W; [|rewrite PU; cbn [fst snd same_notice]; auto]. specialize (FR x).
  destruct PU as (s & G & PL & DD & NA & ON). rewrite G in *. destruct (db_reachable_slave d u s D G) as [RS U]. pose proof (reachable_wf s RS) as WF. pose proof (unregistered s x name NA) as UR.
  assert (FR' : forall t, btype_of_Z kind = Some t -> forall z, In z (dv_areas (bt_device (po_built x)) t) -> a + n <= fst z \/ fst z + snd z <= a) by (intros t K; now apply FR). clear FR.
  pose proof (add_result s x name kind a n WF PL DD NA FR') as AR. destruct (add_block s name kind a n) as [s' r] eqn:E. cbn [snd] in AR. cbn [fst] in R. subst r. cbn [fst snd].
  assert (SAME : forall e, add_block s name kind a n = (s', Err e) -> runs_as (put_slave d u s') w) by (intros e X; apply add_block_err in X as ->; now apply no_change).
  destruct ((n <=? 0) || (a <? 0)) eqn:Z0; [cbn [fst snd same_notice]; split; [reflexivity|]; split; [eapply SAME; eauto|auto]|].
  destruct (po_area x name) as [v|] eqn:AK; [cbn [fst snd same_notice]; split; [reflexivity|]; split; [eapply SAME; eauto|auto]|].
  destruct (btype_of_Z kind) as [t|] eqn:K; [|cbn [fst snd same_notice]; split; [reflexivity|]; split; [eapply SAME; eauto|auto]].
  clear SAME. specialize (FR' t eq_refl). cbn [fst snd same_notice]. split; [reflexivity|]. split; [|auto].
  apply add_block_ok in E as (t0 & l1 & l2 & Hsz & Hst & Hna & Hz & HT & E & _ & _ & ->). rewrite K in Hz. injection Hz as <-.
  set (s1 := with_names s _) in *. assert (HT1 : has_table s1 t) by exact HT. set (nb := new_block a n) in *. set (s' := mem_set s1 t (l1 ++ nb :: l2)) in *.
  destruct PL as (T1 & T2 & T3). pose proof (conj T1 (conj T2 T3) : plain s) as PL. destruct DD as (DA & DC & DS & DO).
  assert (NS : b_start nb = a /\ b_size nb = n) by (split; [reflexivity|apply new_block_size; lia]). destruct NS as (NS1 & NS2).
  assert (BT : blocks s' t = l1 ++ nb :: l2) by (apply blocks_mem_set; [exact HT1|reflexivity]).
  assert (BO : forall t', t' <> t -> blocks s' t' = blocks s t') by (intros t' X; unfold s'; rewrite blocks_mem_set_other; [reflexivity|]; intros Y; apply X; symmetry; now apply T2).
  assert (OLD : forall c, In c (blocks s t) -> a + n <= b_start c \/ b_start c + b_size c <= a).
  { intros c I. specialize (FR' (b_start c, b_size c)). rewrite DA in FR'. apply FR'. apply in_map_iff. eauto. }
  assert (SUP : forall t' c, In c (blocks s t') -> In c (blocks s' t')).
  { intros t' c I. destruct (btype_eq_dec t' t) as [->|X]; [|now rewrite BO]. rewrite BT. rewrite E in I. apply in_app_or in I as [I|I]; apply in_or_app; [now left|right; now right]. }
  assert (SPLIT : forall t' c, In c (blocks s' t') -> (t' = t /\ c = nb) \/ In c (blocks s t')).
  { intros t' c I. destruct (btype_eq_dec t' t) as [->|X]; [|right; now rewrite <- BO]. rewrite BT in I. rewrite E. apply in_app_or in I as [I|[I|I]]; [right; apply in_or_app; now left|left; auto|right; apply in_or_app; now right]. }
  assert (UN : sl_unsigned s' = sl_unsigned s) by (unfold s'; now rewrite mem_set_unsigned).
  assert (NM : forall k, assoc String.eqb k (sl_names s') = assoc String.eqb k (assoc_put String.eqb name (t, a) (sl_names s))) by (intros k; unfold s'; now rewrite mem_set_names).
  assert (WN : wf_block nb) by (unfold wf_block; rewrite NS1, NS2; unfold nb, new_block; cbn [b_data]; unfold zlen; rewrite repeat_length; lia).
  assert (WF' : wf_slave s') by (intros t'; apply Forall_forall; intros c I; destruct (SPLIT t' c I) as [(_ & ->)|I']; [exact WN|]; specialize (WF t'); rewrite Forall_forall in WF; now apply WF).
  assert (WC : forall t' c, In c (blocks s t') -> wf_block c) by (intros t' c I; specialize (WF t'); rewrite Forall_forall in WF; now apply WF).
  assert (PL' : plain s').
  { split; [intros t'; unfold has_table, s'; rewrite mem_set_alias; apply T1|]. split; [intros t1 t2; unfold same_table, s'; rewrite mem_set_alias; apply T2|]. intros t'. destruct (btype_eq_dec t' t) as [->|X]; [|rewrite BO by exact X; apply T3].
    rewrite BT. specialize (T3 t). apply disjoint_FOP. rewrite disjoint_FOP, E in T3. apply FOP_insert. split; [exact T3|]. apply Forall_forall. intros c I y H1 H2. rewrite <- E in I. specialize (OLD c I). unfold holds in *. rewrite NS1, NS2 in H1. lia. }
  assert (RNG : forall t' c y v, In c (blocks s' t') -> cell c y = Some v ->
    (same_type t t' && (a <=? y) && (y <? a + zlen (repeat 0 (Z.to_nat n))) = true /\ v = 0) \/ (same_type t t' && (a <=? y) && (y <? a + zlen (repeat 0 (Z.to_nat n))) = false /\ In c (blocks s t'))).
  { intros t' c y v I V. replace (zlen (repeat 0 (Z.to_nat n))) with n by (unfold zlen; rewrite repeat_length; lia). destruct (SPLIT t' c I) as [(-> & ->)|I'].
    - left. assert (H : holds nb y) by (eapply cell_some; eauto). unfold holds in H. rewrite NS1, NS2 in H. split; [assert (X : same_type t t = true) by (now apply same_type_iff); rewrite X; lia|].
      unfold cell, nb, new_block in V. cbn [b_start b_data] in V. destruct (y <? a); [discriminate V|]. apply nth_error_In in V. now apply repeat_spec in V.
    - right. split; [|exact I']. destruct (same_type t t') eqn:Q; [|reflexivity]. apply same_type_iff in Q. subst t'. assert (H : holds c y) by (eapply cell_some; eauto). specialize (OLD c I'). unfold holds in H. lia. }
  apply one_unit; [exact PL'| | |].
  - split; [|split; [|split; [rewrite UN; exact DS|]]].
    + intros t' z. cbn. destruct (same_type t t') eqn:Q.
      * apply same_type_iff in Q. subst t'. cbn [In]. rewrite DA, BT, E, !map_app. cbn [map]. rewrite NS1, NS2, !in_app_iff. cbn [In]. intuition congruence.
      * rewrite DA, BO; [reflexivity|]. intros ->. assert (X : same_type t t = true) by (now apply same_type_iff). congruence.
    + intros t' c y v I V. cbn. destruct (RNG t' c y v I V) as [(Q & ->)|(Q & I')]; rewrite Q; [|eapply DC; eauto]. rewrite nth_zeros. destruct t'; reflexivity.
    + intros t' c y v I V RG. cbn. rewrite UN. destruct (RNG t' c y v I V) as [(Q & ->)|(Q & I')]; rewrite Q; [|eapply DO; eauto]. split; [intros _|reflexivity]. unfold fits. destruct (sl_unsigned s); lia.
  - intros k. cbn. destruct (String.eqb k name) eqn:Q.
    + apply String.eqb_eq in Q as ->. exists nb. split; [|auto]. apply denotes_in; auto. split; [unfold named; rewrite NM, assoc_put_same, NS1; reflexivity|]. rewrite BT. apply in_elt.
    + apply String.eqb_neq in Q. pose proof (NA k) as A. destruct (po_area x k) as [[[t1 a1] n1]|].
      * destruct A as (c & DN & C1 & C2). exists c. split; [|auto]. apply denotes_in in DN as (DN1 & DN2); auto. apply denotes_in; auto. split; [unfold named in *; rewrite NM, assoc_put_other; auto|now apply SUP].
      * unfold registered in *. rewrite NM, assoc_put_other; auto.
  - assert (NEW : forall k t1 a1 n1, po_area x k = Some (t1, a1, n1) -> (t1, a1) <> (t, a)).
    { intros k t1 a1 n1 X Y. injection Y as -> ->. pose proof (NA k) as A. rewrite X in A. destruct A as (c & DN & C1 & C2). apply denotes_in in DN as (_ & I); auto. specialize (OLD c I). pose proof (WC t c I) as (W1 & W2 & W3). lia. }
    intros k k' t1 a1 n1 n2. cbn. destruct (String.eqb k name) eqn:Q, (String.eqb k' name) eqn:Q'.
    + intros _ _. apply String.eqb_eq in Q, Q'. congruence.
    + intros X Y. injection X as -> -> ->. exfalso. now apply (NEW k' t1 a1 n2).
    + intros X Y. injection Y as -> -> ->. exfalso. now apply (NEW k t1 a1 n1).
    + apply ON.
Qed.
End Moves.

(** ** C136 *)
(** A server that is configured while it works is the site of devices, whatever it was before; and at the start, with no unit at all, it is the empty site. *)
Theorem C136_configured : forall p l last d w, 0 <= last <= 65535 -> db_reachable d -> runs_as d w -> lawful_moves p w l ->
  Forall2 same_notice (snd (program_moves p last d l)) (snd (site_moves w l)) /\ runs_as (fst (program_moves p last d l)) (fst (site_moves w l)).
Proof.
  intros p l. induction l as [|m l IH]; intros last d w T D P F; [split; [constructor|exact P]|]. destruct F as (F1 & F2).
  assert (S : move_well p last d w m) by (destruct m; [apply move_event|apply add_unit|apply drop_unit|apply drop_units|apply add_area_well|apply drop_area_well|apply drop_areas]; auto).
  unfold move_well in S. cbn [program_moves site_moves]. destruct (program_move p last d m) as [[d1 last1] y]. destruct (site_move w m) as [w1 o]. cbn [fst snd] in *. destruct S as (S1 & S2 & S3 & S4).
  destruct (IH last1 d1 w1 S4 S3 S2 F2) as (I1 & I2).
  destruct (program_moves p last1 d1 l) as [d2 ys]. destruct (site_moves w1 l) as [w2 os]. cbn [fst snd] in *. split; [constructor; [exact S1|exact I1]|exact I2].
Qed.
Theorem C136_from_nothing : forall p l last error_on_missing, 0 <= last <= 65535 -> lawful_moves p (fun _ => None) l ->
  Forall2 same_notice (snd (program_moves p last (new_databank error_on_missing) l)) (snd (site_moves (fun _ => None) l)).
Proof.
  intros p l last e T F. apply C136_configured; auto; [|intros v; reflexivity]. exists e, []. split; [constructor|reflexivity].
Qed.

(** ** A concrete case *)
Definition config_moves : list move :=
  [Happens (Ask 3 (ReadRegs true 0 1)); AddUnit 3 false; Happens (Ask 3 (ReadRegs true 0 1)); AddArea 3 "r" 3 0 10; AddUnit 3 true; AddArea 3 "r" 3 20 5; AddArea 3 "c" 7 20 5; AddArea 3 "q" 3 10 5;
   Happens (Ask 3 (WriteReg 9 7)); Happens (Ask 3 (ReadRegs true 9 1)); Happens (Ask 3 (ReadRegs true 9 2)); Happens (Store 3 "q" 10 (SvSeq [70000; 4])); Happens (Ask 3 (ReadRegs true 10 1)); Happens (Ask 3 (ReadRegs true 11 1));
   DropArea 3 "q"; Happens (Ask 3 (ReadRegs true 11 1)); DropArea 3 "q"; AddArea 3 "q" 3 10 8; Happens (Ask 3 (ReadRegs true 10 2)); AddUnit 300 true; DropUnit 4; AddUnit 9 true; AddArea 9 "x" 3 0 10;
   Happens (Announce (WriteReg 9 11)); Happens (Ask 9 (ReadRegs true 9 1)); Happens (Ask 3 (ReadRegs true 9 1)); Happens (Fetch 3 "r" 8 2); DropAreas 3; Happens (Ask 3 (ReadRegs true 9 1)); DropUnit 3; Happens (Ask 3 (ReadRegs true 9 1)); DropUnits; Happens (Ask 9 (ReadRegs true 9 1))].
Example C136_ex : lawful_moves TCP (fun _ => None) config_moves /\
  snd (site_moves (fun _ => None) config_moves) =
    [News (Heard None); Said (Ok tt); News (Heard (Some (Says (Refused 2)))); Said (Ok tt); Said (Err DuplicatedKeyError); Said (Err DuplicatedKeyError); Said (Err InvalidModbusBlockError); Said (Ok tt);
     News (Heard (Some (Says (Values [9; 7])))); News (Heard (Some (Says (Values [7])))); News (Heard (Some (Says (Refused 2)))); News Kept; News (Heard (Some Fails)); News (Heard (Some (Says (Values [4]))));
     Said (Ok tt); News (Heard (Some (Says (Refused 2)))); Said (Err MissingKeyError); Said (Ok tt); News (Heard (Some (Says (Values [0; 0])))); Said (Err GenericException); Said (Err MissingKeyError); Said (Ok tt); Said (Ok tt);
     News (Heard None); News (Heard (Some (Says (Values [11])))); News (Heard (Some (Says (Values [11])))); News (Found HOLDING_REGISTERS [0; 11]); Said (Ok tt); News (Heard (Some (Says (Refused 2)))); Said (Ok tt); News (Heard None); Said (Ok tt); News (Heard None)].
Proof.
  split; [|vm_compute; reflexivity]. unfold config_moves.
  repeat (cbn [lawful_moves]; split; [cbn [lawful_move]; first
    [ exact Logic.I
    | cbn [lawful]; exact Logic.I
    | cbn [lawful]; lia
    | cbn [lawful]; eapply askable_intro; [lia|discriminate|cbn [encodable]; unfold fits, bytes, is_byte, zlen, reg_value; cbn [length Z.of_nat repeat]; repeat constructor; lia|reflexivity|vm_compute; discriminate]
    | cbn [lawful]; split; [cbn [fc_of In]; tauto|]; intros last0 T0; split; [cbn [encodable]; unfold fits, reg_value; repeat split; lia|]; split; [exact T0|]; split; [lia|]; intros pdu P; apply framable_small; rewrite P; vm_compute; discriminate
    | intros x t X K z I; first [discriminate K|injection K as <-]; vm_compute in X; injection X as <-; vm_compute in I; repeat (destruct I as [<-|I]; [cbn [fst snd]; lia|]); destruct I ]|]).
  exact Logic.I.
Qed.

Print Assumptions C136_configured.
Print Assumptions C136_from_nothing.
