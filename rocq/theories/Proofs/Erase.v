(** Unflattening never looks at the locations of cells: it commutes with any
    change of locations that keeps the headings. *)
From Coq Require Import Permutation Lia.
From Verif.Base Require Import PyStr PyNum PyVal PyDict Outcome.
From Verif.Model Require Import Warn Lib Convert Input.
From Verif.Proofs Require Import TreeInd EmbedFacts.
Local Open Scope res_scope.

(** ** Mapping the value of an outcome *)
Definition rmap {W A B} (f : A -> B) (m : res W A) : res W B := match m with Ok a w => Ok (f a) w | Raise e w => Raise e w end.
Lemma rmap_bind {W A B C} (f : B -> C) (m : res W A) (k : A -> res W B) : rmap f (bind m k) = bind m (fun x => rmap f (k x)).
Proof. destruct m as [a w|e w]; simpl; [|reflexivity]. destruct (k a); reflexivity. Qed.
Lemma bind_rmap {W A B C} (f : A -> B) (m : res W A) (k : B -> res W C) : bind (rmap f m) k = bind m (fun x => k (f x)).
Proof. destruct m; reflexivity. Qed.
Lemma bind_ext {W A B} (m : res W A) (k k' : A -> res W B) : (forall a, k a = k' a) -> bind m k = bind m k'.
Proof. intros H. destruct m; simpl; [rewrite H|]; reflexivity. Qed.

(** ** Mapping the values of a dict *)
Section AMap.
  Context {K V V' : Type} (eqb : K -> K -> bool) (g : V -> V').
  Definition vals (d : list (K * V)) : list (K * V') := map (fun kv => (fst kv, g (snd kv))) d.
  Lemma aget_vals k d : aget eqb k (vals d) = option_map g (aget eqb k d).
  Proof. induction d as [|[k' v] d IH]; simpl; [reflexivity|]. destruct (eqb k k'); [reflexivity|exact IH]. Qed.
  Lemma aset_vals k v d : aset eqb k (g v) (vals d) = vals (aset eqb k v d).
  Proof. induction d as [|[k' v'] d IH]; simpl; [reflexivity|]. destruct (eqb k k'); simpl; [reflexivity|]. rewrite IH. reflexivity. Qed.
  Lemma aupdate_vals e : forall d, aupdate eqb (vals d) (vals e) = vals (aupdate eqb d e).
  Proof. unfold aupdate. induction e as [|[k v] e IH]; intros d; simpl; [reflexivity|]. rewrite aset_vals. apply IH. Qed.
End AMap.

Section Loc.
  Variable f : loc -> loc.
  Definition lcell (c : cell) : cell := {| c_val := c_val c; c_loc := f (c_loc c); c_sub := map (fun s => (fst s, f (snd s))) (c_sub c) |}.
  Fixpoint lr (n : rnode) : rnode :=
    match n with
    | RCell c => RCell (lcell c)
    | RDict d => RDict (map (fun kv => (fst kv, lr (snd kv))) d)
    | RLad l => RLad (map (fun kd => (fst kd, map (fun kv => (fst kv, lr (snd kv))) (snd kd))) l)
    end.
  Fixpoint lt (n : tnode) : tnode :=
    match n with
    | TCell c => TCell (lcell c)
    | TDict d => TDict (map (fun kv => (fst kv, lt (snd kv))) d)
    | TTemp data nk => TTemp (map (fun kd => (fst kd, map (fun kv => (fst kv, lt (snd kv))) (snd kd))) data)
                             (map (fun d => map (fun kv => (fst kv, lt (snd kv))) d) nk)
    end.
  Definition lrd : rdict -> rdict := vals lr.
  Definition ltd : tdict -> tdict := vals lt.
  Definition lrl : list (Z * rdict) -> list (Z * rdict) := vals lrd.
  Definition ltt (t : ttemp) : ttemp := (vals ltd (fst t), map ltd (snd t)).
  Lemma lr_dict d : lr (RDict d) = RDict (lrd d). Proof. reflexivity. Qed.
  Lemma lr_lad l : lr (RLad l) = RLad (lrl l). Proof. reflexivity. Qed.
  Lemma lt_dict d : lt (TDict d) = TDict (ltd d). Proof. reflexivity. Qed.
  Lemma lt_temp data nk : lt (TTemp data nk) = TTemp (vals ltd data) (map ltd nk). Proof. reflexivity. Qed.
  Lemma lrd_get k d : sget k (lrd d) = option_map lr (sget k d). Proof. apply aget_vals. Qed.
  Lemma lrd_set k n d : sset k (lr n) (lrd d) = lrd (sset k n d). Proof. apply aset_vals. Qed.
  Lemma ltd_get k d : sget k (ltd d) = option_map lt (sget k d). Proof. apply aget_vals. Qed.
  Lemma ltd_set k n d : sset k (lt n) (ltd d) = ltd (sset k n d). Proof. apply aset_vals. Qed.
  Lemma lrl_get i l : zget i (lrl l) = option_map lrd (zget i l). Proof. apply aget_vals. Qed.
  Lemma lrl_set i d l : zset i (lrd d) (lrl l) = lrl (zset i d l). Proof. apply aset_vals. Qed.

  Section Row.
    Variables (E : conv_env) (types : str -> str) (xml : bool) (idn : str).
    Notation walk := (Input.walk E types xml).
    (** the tail of an array step *)
    Lemma walk_loc h location rest : forall seen v cur,
      walk h (f location) seen rest v (lrd cur) = rmap lrd (walk h location seen rest v cur).
    Proof.
      induction rest as [|item rest IH]; intros seen v cur; [reflexivity|]. cbn [Input.walk]. cbv zeta.
      destruct (isint item).
      { rewrite rmap_bind. apply bind_ext. intros _. apply IH. }
      rewrite lrd_get.
      assert (Harr : forall till idx,
        match match option_map lr (sget item cur) with None => Some [] | Some (RLad l) => Some l | Some _ => None end with
        | None => _ <- warn1 (WColumnArray h till) ;; ret (lrd cur)
        | Some l =>
          let sub := match zget idx l with Some d => d | None => [] end in
          if negb xml || (2 <=? Datatypes.length rest)%nat then
            sub' <- walk h (f location) (seen ++ [item]) rest v sub ;; ret (sset item (RLad (zset idx sub' l)) (lrd cur))
          else conv <- convert_type E [] v ;;
               let sub1 := if cv_blank conv then sub
                           else if startswith item (u "@") then sset item (RCell (mk_cell conv (f location))) sub
                           else sset text_key (RCell (mk_cell conv (f location))) sub in
               sub' <- walk h (f location) (seen ++ [item]) rest conv sub1 ;; ret (sset item (RLad (zset idx sub' l)) (lrd cur))
        end = rmap lrd (match match sget item cur with None => Some [] | Some (RLad l) => Some l | Some _ => None end with
        | None => _ <- warn1 (WColumnArray h till) ;; ret cur
        | Some l =>
          let sub := match zget idx l with Some d => d | None => [] end in
          if negb xml || (2 <=? Datatypes.length rest)%nat then
            sub' <- walk h location (seen ++ [item]) rest v sub ;; ret (sset item (RLad (zset idx sub' l)) cur)
          else conv <- convert_type E [] v ;;
               let sub1 := if cv_blank conv then sub
                           else if startswith item (u "@") then sset item (RCell (mk_cell conv location)) sub
                           else sset text_key (RCell (mk_cell conv location)) sub in
               sub' <- walk h location (seen ++ [item]) rest conv sub1 ;; ret (sset item (RLad (zset idx sub' l)) cur)
        end)).
      { intros till idx.
        assert (Hl : forall l,
          (let sub := match zget idx (lrl l) with Some d => d | None => [] end in
          if negb xml || (2 <=? Datatypes.length rest)%nat then
            sub' <- walk h (f location) (seen ++ [item]) rest v sub ;; ret (sset item (RLad (zset idx sub' (lrl l))) (lrd cur))
          else conv <- convert_type E [] v ;;
               let sub1 := if cv_blank conv then sub
                           else if startswith item (u "@") then sset item (RCell (mk_cell conv (f location))) sub
                           else sset text_key (RCell (mk_cell conv (f location))) sub in
               sub' <- walk h (f location) (seen ++ [item]) rest conv sub1 ;; ret (sset item (RLad (zset idx sub' (lrl l))) (lrd cur))) =
          rmap lrd (let sub := match zget idx l with Some d => d | None => [] end in
          if negb xml || (2 <=? Datatypes.length rest)%nat then
            sub' <- walk h location (seen ++ [item]) rest v sub ;; ret (sset item (RLad (zset idx sub' l)) cur)
          else conv <- convert_type E [] v ;;
               let sub1 := if cv_blank conv then sub
                           else if startswith item (u "@") then sset item (RCell (mk_cell conv location)) sub
                           else sset text_key (RCell (mk_cell conv location)) sub in
               sub' <- walk h location (seen ++ [item]) rest conv sub1 ;; ret (sset item (RLad (zset idx sub' l)) cur))).
        { intros l. cbv zeta. rewrite lrl_get.
          assert (Es : match option_map lrd (zget idx l) with Some d => d | None => [] end = lrd match zget idx l with Some d => d | None => [] end) by (destruct (zget idx l); reflexivity).
          rewrite Es. clear Es. set (sub := match zget idx l with Some d => d | None => [] end). destruct (negb xml || (2 <=? Datatypes.length rest)%nat).
          - rewrite IH, bind_rmap, rmap_bind. apply bind_ext. intros sub'. cbn [ret rmap]. rewrite lrl_set, <- lr_lad, lrd_set. reflexivity.
          - rewrite rmap_bind. apply bind_ext. intros conv. rewrite rmap_bind.
            assert (E1 : (if cv_blank conv then lrd sub else if startswith item (u "@") then sset item (RCell (mk_cell conv (f location))) (lrd sub) else sset text_key (RCell (mk_cell conv (f location))) (lrd sub))
              = lrd (if cv_blank conv then sub else if startswith item (u "@") then sset item (RCell (mk_cell conv location)) sub else sset text_key (RCell (mk_cell conv location)) sub)).
            { change (RCell (mk_cell conv (f location))) with (lr (RCell (mk_cell conv location))). rewrite !lrd_set. destruct (cv_blank conv); [reflexivity|]. destruct (startswith item (u "@")); reflexivity. }
            rewrite E1, IH, bind_rmap. apply bind_ext. intros sub'. cbn [ret rmap]. rewrite lrl_set, <- lr_lad, lrd_set. reflexivity. }
        destruct (sget item cur) as [[c|d|l]|]; cbn [option_map]; [reflexivity|reflexivity|exact (Hl l)|exact (Hl [])]. }
      match goal with |- match parse_int ?x with _ => _ end = _ => destruct (parse_int x) as [idx|] end.
      { match goal with |- (if ?b then _ else _) = _ => destruct b end; [reflexivity|]. apply Harr. }
      match goal with |- (if ?b then _ else _) = _ => destruct b end; [apply Harr|].
      match goal with |- (if ?b then _ else _) = _ => destruct b end.
      { assert (Hd : forall d, (sub' <- walk h (f location) (seen ++ [item]) rest v (lrd d) ;; ret (sset item (RDict sub') (lrd cur))) =
                     rmap lrd (sub' <- walk h location (seen ++ [item]) rest v d ;; ret (sset item (RDict sub') cur))).
        { intros d. rewrite IH, bind_rmap, rmap_bind. apply bind_ext. intros sub'. cbn [ret rmap]. rewrite <- lr_dict, lrd_set. reflexivity. }
        destruct (sget item cur) as [[c|d|l]|]; cbn [option_map lr]; [reflexivity|exact (Hd d)|reflexivity|exact (Hd [])]. }
      match goal with |- (if ?b then _ else _) = _ => destruct b end; [reflexivity|].
      set (ct := if xml && is_datetime v && is_empty match rest with [] => [] | n :: _ => n end && negb (contains (py_str E h) (u "datetime")) then u "date" else types (path_till (seen ++ [item]))).
      assert (Hv : forall old, (conv <- convert_type E ct v ;;
           cur' <- (if cv_blank conv then ret (lrd cur)
                    else if negb xml || startswith item (u "@") then ret (sset item (RCell (mk_cell conv (f location))) (lrd cur))
                    else match option_map lr old with
                         | None => ret (sset item (RDict [(text_key, RCell (mk_cell conv (f location)))]) (lrd cur))
                         | Some (RDict d) => ret (sset item (RDict (sset text_key (RCell (mk_cell conv (f location))) d)) (lrd cur))
                         | Some (RCell _) => Raise ETypeError []
                         | Some (RLad _) => Raise ETypeError []
                         end) ;; walk h (f location) (seen ++ [item]) rest conv cur') =
         rmap lrd (conv <- convert_type E ct v ;;
           cur' <- (if cv_blank conv then ret cur
                    else if negb xml || startswith item (u "@") then ret (sset item (RCell (mk_cell conv location)) cur)
                    else match old with
                         | None => ret (sset item (RDict [(text_key, RCell (mk_cell conv location))]) cur)
                         | Some (RDict d) => ret (sset item (RDict (sset text_key (RCell (mk_cell conv location)) d)) cur)
                         | Some (RCell _) => Raise ETypeError []
                         | Some (RLad _) => Raise ETypeError []
                         end) ;; walk h location (seen ++ [item]) rest conv cur')).
      { intros old. rewrite rmap_bind. apply bind_ext. intros conv. rewrite rmap_bind.
        change (RCell (mk_cell conv (f location))) with (lr (RCell (mk_cell conv location))).
        transitivity (bind (rmap lrd (if cv_blank conv then ret cur
                    else if negb xml || startswith item (u "@") then ret (sset item (RCell (mk_cell conv location)) cur)
                    else match old with
                         | None => ret (sset item (RDict [(text_key, RCell (mk_cell conv location))]) cur)
                         | Some (RDict d) => ret (sset item (RDict (sset text_key (RCell (mk_cell conv location)) d)) cur)
                         | Some (RCell _) => Raise ETypeError []
                         | Some (RLad _) => Raise ETypeError []
                         end)) (fun cur' => walk h (f location) (seen ++ [item]) rest conv cur')).
        - f_equal. destruct (cv_blank conv); [reflexivity|]. destruct (negb xml || startswith item (u "@")); [cbn [ret rmap]; rewrite lrd_set; reflexivity|].
          destruct old as [[c|d|l]|]; cbn [option_map]; try reflexivity.
          + cbn [lr ret rmap]. change (map (fun kv => (fst kv, lr (snd kv))) d) with (lrd d). change (RCell (lcell (mk_cell conv location))) with (lr (RCell (mk_cell conv location))).
            rewrite lrd_set, <- lr_dict, lrd_set. reflexivity.
          + cbn [ret rmap]. rewrite <- lrd_set. reflexivity.
        - rewrite bind_rmap. apply bind_ext. intros cur'. apply IH. }
      destruct xml eqn:Ex.
      - apply (Hv (sget item cur)).
      - destruct (sget item cur) as [[c|d|l]|] eqn:Eg; cbn [option_map lr].
        + exact (Hv (Some (RCell c))).
        + rewrite rmap_bind. apply bind_ext. intros _. apply IH.
        + rewrite rmap_bind. apply bind_ext. intros _. apply IH.
        + exact (Hv None).
    Qed.

    Definition lline (line : list (scalar * cell)) := map (fun hc : scalar * cell => (fst hc, lcell (snd hc))) line.
    Lemma build_row_loc line : forall cur, build_row E types xml (lline line) (lrd cur) = rmap lrd (build_row E types xml line cur).
    Proof.
      induction line as [|[h c] line IH]; intros cur; [reflexivity|]. cbn [lline map fst snd build_row lcell c_val c_loc]. destruct (cv_blank (c_val c)); [apply IH|].
      rewrite walk_loc, bind_rmap, rmap_bind. apply bind_ext. intros cur'. apply IH.
    Qed.
    Lemma item_key_loc d : item_key xml idn (ltd d) = item_key xml idn d.
    Proof.
      unfold item_key. rewrite ltd_get. destruct (sget idn d) as [[c|e|data nk]|]; cbn [option_map lt]; try reflexivity.
      destruct xml; [|reflexivity]. change (map (fun kv => (fst kv, lt (snd kv))) e) with (ltd e). rewrite ltd_get. destruct (sget text_key e) as [[c|?|? ?]|]; reflexivity.
    Qed.
    Lemma temp_append_loc t d : temp_append xml idn (ltt t) (ltd d) = rmap ltt (temp_append xml idn t d).
    Proof.
      destruct t as [data nk]. unfold temp_append, ltt. cbn [fst snd]. rewrite item_key_loc, rmap_bind. apply bind_ext. intros [k|].
      - unfold kget, kset. rewrite aget_vals. destruct (aget py_eqb k data) as [old|]; cbn [option_map ret rmap fst snd].
        + assert (Eu : aupdate str_eqb (ltd old) (ltd d) = ltd (aupdate str_eqb old d)) by apply aupdate_vals. rewrite Eu, aset_vals. reflexivity.
        + rewrite aset_vals. reflexivity.
      - cbn [ret rmap fst snd]. rewrite map_app. reflexivity.
    Qed.
    Lemma temp_of_list_loc l : forall t, temp_of_list xml idn (ltt t) (map ltd l) = rmap ltt (temp_of_list xml idn t l).
    Proof.
      induction l as [|d l IH]; intros t; [reflexivity|]. cbn [map temp_of_list]. rewrite temp_append_loc, bind_rmap, rmap_bind. apply bind_ext. exact IH.
    Qed.
    Lemma insert_z_vals {V V'} (g : V -> V') i x l : insert_z (i, g x) (vals g l) = vals g (insert_z (i, x) l).
    Proof. induction l as [|[j y] l IH]; [reflexivity|]. cbn [vals map insert_z fst snd]. destruct (i <=? j)%Z; [reflexivity|]. cbn [map fst snd]. f_equal. exact IH. Qed.
    Lemma sort_z_vals {V V'} (g : V -> V') l : sort_z (vals g l) = vals g (sort_z l).
    Proof. induction l as [|[i x] l IH]; [reflexivity|]. cbn [vals map sort_z fst snd]. fold (vals g l). rewrite IH. apply insert_z_vals. Qed.

    Definition fin_loc_ok (n : rnode) : Prop := fin xml idn (lr n) = rmap lt (fin xml idn n).
    Lemma fin_dict_loc d : Prd fin_loc_ok d -> fin_dict (fin xml idn) (lrd d) = rmap ltd (fin_dict (fin xml idn) d).
    Proof.
      intros H. induction H as [|[k n] d Hn _ IH]; [reflexivity|]. cbn [snd] in Hn.
      assert (G : (n' <- fin xml idn (lr n) ;; r <- fin_dict (fin xml idn) (lrd d) ;; ret ((k, n') :: r)) = rmap ltd (n' <- fin xml idn n ;; r <- fin_dict (fin xml idn) d ;; ret ((k, n') :: r))).
      { rewrite Hn, IH, bind_rmap, rmap_bind. apply bind_ext. intros n'. rewrite bind_rmap, rmap_bind. apply bind_ext. intros r. reflexivity. }
      destruct n as [c|[|x sub]|l]; try exact G. exact IH.
    Qed.
    Lemma fin_items_loc l : Forall (fun kd : Z * rdict => Prd fin_loc_ok (snd kd)) l -> fin_items (fin xml idn) (lrl l) = rmap (vals ltd) (fin_items (fin xml idn) l).
    Proof.
      intros H. induction H as [|[i d] l Hd _ IH]; [reflexivity|]. cbn [snd] in Hd.
      assert (G : (d' <- fin_dict (fin xml idn) (lrd d) ;; r <- fin_items (fin xml idn) (lrl l) ;; ret ((i, d') :: r)) = rmap (vals ltd) (d' <- fin_dict (fin xml idn) d ;; r <- fin_items (fin xml idn) l ;; ret ((i, d') :: r))).
      { rewrite fin_dict_loc by exact Hd. rewrite IH, bind_rmap, rmap_bind. apply bind_ext. intros n'. rewrite bind_rmap, rmap_bind. apply bind_ext. intros r. reflexivity. }
      destruct d as [|x sub]; [exact IH|exact G].
    Qed.
    Lemma fin_loc n : fin_loc_ok n.
    Proof.
      unfold fin_loc_ok. induction n as [c|d IH|l IH] using rnode_ind'; [reflexivity| |].
      - rewrite lr_dict. cbn [fin]. rewrite fin_dict_loc by exact IH. rewrite bind_rmap, rmap_bind. apply bind_ext. intros d'. reflexivity.
      - rewrite lr_lad. cbn [fin]. rewrite fin_items_loc by exact IH. rewrite bind_rmap, rmap_bind. apply bind_ext. intros l'.
        rewrite sort_z_vals. replace (map snd (vals ltd (sort_z l'))) with (map ltd (map snd (sort_z l'))) by (unfold vals; rewrite !map_map; reflexivity).
        change ([], []) with (ltt ([], [])) at 1. rewrite temp_of_list_loc, bind_rmap, rmap_bind. apply bind_ext. intros [data nk]. reflexivity.
    Qed.
    Lemma unflatten_row_loc line : unflatten_row E types xml idn (lline line) = rmap ltd (unflatten_row E types xml idn line).
    Proof.
      unfold unflatten_row. change (@nil (str * rnode)) with (lrd []) at 1. rewrite build_row_loc, bind_rmap, rmap_bind. apply bind_ext. intros d.
      apply fin_dict_loc. apply Forall_forall. intros kv _. apply fin_loc.
    Qed.
  End Row.

  (** ** Merging *)
  Hypothesis Hhead : forall l, l_heading (f l) = l_heading l.
  Lemma node_cells_loc n : map (fun c => l_heading (c_loc c)) (node_cells (lt n)) = map (fun c => l_heading (c_loc c)) (node_cells n).
  Proof.
    set (hs := map (fun c => l_heading (c_loc c))).
    set (go := fix go (d : tdict) := match d with [] => [] | (_, n) :: d' => node_cells n ++ go d' end).
    assert (D : forall d, Pd (fun n => hs (node_cells (lt n)) = hs (node_cells n)) d -> hs (go (ltd d)) = hs (go d)).
    { intros d H. induction H as [|[k n'] d Hn _ IH]; [reflexivity|]. cbn [ltd vals map fst snd go]. unfold hs in *. rewrite !map_app. cbn [snd] in Hn. rewrite Hn. f_equal. exact IH. }
    induction n as [c|d IH|data nk IHd IHn] using tnode_ind'.
    - cbn. rewrite Hhead. reflexivity.
    - exact (D d IH).
    - rewrite lt_temp. cbn [node_cells]. fold go. unfold hs in *. rewrite !map_app. f_equal.
      + induction IHd as [|[k d] l Hd _ IH]; [reflexivity|]. cbn [vals map fst snd]. rewrite !map_app. f_equal; [apply D; exact Hd|exact IH].
      + induction IHn as [|d l Hd _ IH]; [reflexivity|]. cbn [map]. rewrite !map_app. f_equal; [apply D; exact Hd|exact IH].
  Qed.
  Lemma ignored_loc n y : ignored (lt n) y = ignored n y.
  Proof.
    unfold ignored. pose proof (node_cells_loc n) as H. rewrite <- (map_map (fun c => l_heading (c_loc c)) (fun x => WIgnored x y)), H, map_map. reflexivity.
  Qed.
  Section M.
    Variable dbg : debug.
    Definition merge_ok (v : tnode) : Prop := forall k base, merge_item dbg k (lt v) (ltd base) = rmap ltd (merge_item dbg k v base).
    Lemma merge_list_loc m : Pd merge_ok m -> forall base, merge_list (merge_item dbg) (ltd m) (ltd base) = rmap ltd (merge_list (merge_item dbg) m base).
    Proof.
      intros H. induction H as [|[k v] m Hv _ IH]; intros base; [reflexivity|]. cbn [ltd vals map fst snd merge_list]. fold lt. cbn [snd] in Hv. rewrite Hv, bind_rmap, rmap_bind. apply bind_ext. exact IH.
    Qed.
    Lemma merge_data_loc data : Forall (fun kd : scalar * tdict => Pd merge_ok (snd kd)) data -> forall bdata,
      merge_data (merge_item dbg) (vals ltd data) (vals ltd bdata) = rmap (vals ltd) (merge_data (merge_item dbg) data bdata).
    Proof.
      intros H. induction H as [|[k d] data Hd _ IH]; intros bdata; [reflexivity|]. cbn [vals map fst snd merge_data]. fold (vals ltd data). fold (vals ltd bdata). unfold kget, kset. rewrite aget_vals.
      destruct (aget py_eqb k bdata) as [b|]; cbn [option_map].
      - rewrite merge_list_loc by exact Hd. rewrite bind_rmap, rmap_bind. apply bind_ext. intros b'. rewrite aset_vals. apply IH.
      - rewrite aset_vals. apply IH.
    Qed.
    Lemma merge_item_loc v : merge_ok v.
    Proof.
      induction v as [c|d IH|data nk IHd IHn] using tnode_ind'; intros k base.
      - cbn [lt merge_item]. rewrite ltd_get. destruct (sget k base) as [b|]; cbn [option_map].
        2:{ cbn [ret rmap]. rewrite <- ltd_set. reflexivity. }
        pose proof (ignored_loc (TCell c)) as Hig. cbn [lt] in Hig. rewrite !Hig. cbn [lcell c_val].
        destruct (c_val c) as [s|l|l|g] eqn:Ec; destruct b as [bc|bd|bdata bnk]; cbn [lt]; try reflexivity; cbn [lcell c_val];
          (match goal with |- context [cv_eqb ?a ?b] => destruct (cv_eqb a b) end; [|reflexivity]); cbn [ret rmap]; rewrite <- ltd_set; f_equal; f_equal; cbn [lt]; f_equal;
          unfold add_sub, lcell; cbn; rewrite map_app; reflexivity.
      - pose proof (ignored_loc (TDict d)) as Hig. rewrite lt_dict in *. cbn [merge_item]. rewrite ltd_get. destruct (sget k base) as [b|]; cbn [option_map].
        2:{ cbn [ret rmap]. rewrite <- ltd_set. reflexivity. }
        rewrite !Hig. destruct b as [bc|bd|bdata bnk]; cbn [lt]; try reflexivity. change (map (fun kv => (fst kv, lt (snd kv))) bd) with (ltd bd).
        rewrite merge_list_loc by exact IH. rewrite bind_rmap, rmap_bind. apply bind_ext. intros bd'. cbn [ret rmap]. rewrite <- lt_dict, ltd_set. reflexivity.
      - pose proof (ignored_loc (TTemp data nk)) as Hig. rewrite lt_temp in *. cbn [merge_item]. rewrite ltd_get. destruct (sget k base) as [b|]; cbn [option_map].
        2:{ cbn [ret rmap]. rewrite <- ltd_set. reflexivity. }
        rewrite !Hig. destruct b as [bc|bd|bdata bnk]; [reflexivity|reflexivity|]. rewrite lt_temp. cbv iota.
        rewrite merge_data_loc by exact IHd. rewrite bind_rmap, rmap_bind. apply bind_ext. intros bd'. cbn [ret rmap]. rewrite <- map_app, <- lt_temp, ltd_set. reflexivity.
    Qed.
    Lemma merge_loc base m : merge dbg (ltd base) (ltd m) = rmap ltd (merge dbg base m).
    Proof. apply merge_list_loc. apply Forall_forall. intros kv _. apply merge_item_loc. Qed.
  End M.

  (** ** Placing a row *)
  Definition lst (st : main_state) : main_state := vals ltt st.
  Lemma main_id_loc O d : main_id O (ltd d) = main_id O d.
  Proof.
    unfold main_id. rewrite ltd_get. destruct (sget (o_id_name O) d) as [[c|e|data nk]|]; cbn [option_map lt]; try reflexivity.
    destruct (o_xml O); [|reflexivity]. change (map (fun kv => (fst kv, lt (snd kv))) e) with (ltd e). rewrite ltd_get. destruct (sget text_key e) as [[c|?|? ?]|]; reflexivity.
  Qed.
  Lemma place_loc O sheet root d st : place O sheet root (ltd d) (lst st) = rmap lst (place O sheet root d st).
  Proof.
    unfold place. cbv zeta.
    assert (Eg : kget root (lst st) = option_map ltt (kget root st)) by apply aget_vals. rewrite Eg. clear Eg.
    assert (Et : match option_map ltt (kget root st) with Some t => t | None => ([], []) end = ltt match kget root st with Some t => t | None => ([], []) end) by (destruct (kget root st); reflexivity).
    rewrite Et. clear Et. set (t := match kget root st with Some t => t | None => ([], []) end).
    rewrite main_id_loc, rmap_bind. apply bind_ext. intros k.
    assert (Ek : match k with Some k0 => match kget k0 (fst (ltt t)) with Some old => Some (k0, old) | None => None end | None => None end =
                 option_map (fun ko => (fst ko, ltd (snd ko))) match k with Some k0 => match kget k0 (fst t) with Some old => Some (k0, old) | None => None end | None => None end).
    { destruct k as [k|]; [|reflexivity]. cbn [fst ltt]. assert (Eg : kget k (vals ltd (fst t)) = option_map ltd (kget k (fst t))) by apply aget_vals. rewrite Eg. destruct (kget k (fst t)); reflexivity. }
    rewrite Ek. destruct (match k with Some k0 => match kget k0 (fst t) with Some old => Some (k0, old) | None => None end | None => None end) as [[k0 old]|]; cbn [option_map fst snd].
    - rewrite merge_loc, bind_rmap, rmap_bind. apply bind_ext. intros new. cbn [ret rmap].
      assert (E1 : (kset k0 (ltd new) (fst (ltt t)), snd (ltt t)) = ltt (kset k0 new (fst t), snd t)) by (unfold ltt; cbn [fst snd]; f_equal; apply aset_vals).
      rewrite E1. unfold ret. f_equal. apply aset_vals.
    - rewrite temp_append_loc, bind_rmap, rmap_bind. apply bind_ext. intros t'. unfold ret. cbn [rmap]. f_equal. apply aset_vals.
  Qed.
  (** the output does not depend on the locations *)
  Lemma tv_loc n : tv (lt n) = tv n.
  Proof.
    assert (D : forall d, Pd (fun n => tv (lt n) = tv n) d -> tvd (ltd d) = tvd d).
    { intros d H. unfold tvd, ltd, vals. rewrite map_map. apply map_ext_in. intros [k n'] Hin. unfold Pd in H. rewrite Forall_forall in H. cbn [fst snd]. f_equal. exact (H _ Hin). }
    induction n as [c|d IH|data nk IHd IHn] using tnode_ind'.
    - reflexivity.
    - rewrite lt_dict, !tv_dict. f_equal. apply D. exact IH.
    - rewrite lt_temp, !tv_temp. f_equal. rewrite !map_app. f_equal.
      + unfold vals. rewrite !map_map. apply map_ext_in. intros [k d] Hin. rewrite Forall_forall in IHd. cbn [fst snd]. apply D. apply (IHd _ Hin).
      + rewrite !map_map. apply map_ext_in. intros d Hin. rewrite Forall_forall in IHn. apply D. apply (IHn _ Hin).
  Qed.
  Lemma tvd_loc d : tvd (ltd d) = tvd d.
  Proof. unfold tvd, ltd, vals. rewrite map_map. apply map_ext. intros [k n]. cbn [fst snd]. rewrite tv_loc. reflexivity. Qed.
End Loc.
