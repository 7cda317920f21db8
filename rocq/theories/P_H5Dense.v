(** C69-C71: fractal heaps, version-2 B-trees and symbol tables. *)
From Verif Require Import Prelude GoVal BaseLemmas H5Base H5ChecksumModel Lookup3Spec H5ChecksumProofs H5MetaWrite
  H5MetaRead MetaSpec H5MetaProofs H5DenseRead DenseSpec H5DenseProofs H5BTreeProofs H5SymbolProofs.
From Coq Require Import Lia ZifyBool ZifyNat Permutation.

(** ** C69 *)
Theorem C69_heap f a off addr : in_heap f a off addr -> zlen f < 2 ^ 63 ->
  exists h blk o, readHeap f a = Ok h /\ doDoubling 70 f h off = Ok (blk, o) /\ blk + o = addr.
Proof. apply heap_found. Qed.

Definition hp_header (root rows : Z) : bytes :=
  sealed (bs "FRHP" ++ [0] ++ le 2 8 ++ le 2 0 ++ [0] ++ le 4 4096 ++ flat_map (le 8) (zrep 12 7) ++ le 2 4 ++
          le 8 512 ++ le 8 1024 ++ le 2 32 ++ le 2 1 ++ le 8 root ++ le 2 rows).
Definition hp_block (entries : list Z) : bytes :=
  sealed (bs "FHIB" ++ [0] ++ le 8 0 ++ le 4 0 ++ flat_map (le 8) entries).
(** a heap of four rows: blocks of 512, 512, 1024 and 2048 bytes; those of the last row are
    indirect.  The first of them, at 295, stands for 2048 bytes and has one row of entries. *)
Definition hp_entries : list Z :=
  [1000; undefined; 2000; 3000;  4000; 5000; 6000; 7000;  8000; 9000; 10000; 11000;  295; undefined; undefined; undefined].
Definition hp_file : bytes := hp_header 146 4 ++ hp_block hp_entries ++ hp_block [12000; 13000; 14000; undefined].
Lemma Forall_word64 l : forallb (fun z => (0 <=? z) && (z <? 2 ^ 64)) l = true -> Forall (word 64) l.
Proof. rewrite forallb_forall, Forall_forall. intros H x Hx. specialize (H x Hx). unfold word. lia. Qed.

Lemma hp_indirect entries pre post : forallb (fun z => (0 <=? z) && (z <? 2 ^ 64)) entries = true ->
  indirect_at (pre ++ hp_block entries ++ post) 32 (zlen pre) entries.
Proof.
  intros H. exists 0, 0. split; [unfold word; lia|]. split; [unfold word; lia|].
  split; [apply Forall_word64; exact H|]. exists pre, post. split; reflexivity.
Qed.
Example C69_example : in_heap hp_file 0 (8192 + 600) (13000 + 88) /\ in_heap hp_file 0 1100 (2000 + 76) /\
  (let* h := readHeap hp_file 0 in
   let* x := doDoubling 70 hp_file h (8192 + 600) in
   let* y := doDoubling 70 hp_file h 1100 in Ok (x, y)) = Ok ((13000, 88), (2000, 76)).
Proof.
  assert (Hh : heap_at hp_file 512 1024 32 0 146 4).
  { split; [|split; [|split; [|split]]].
    - split; [left; reflexivity|]. exists 9, 10. repeat apply conj; try lia; reflexivity.
    - vm_compute; split; congruence.
    - vm_compute; split; congruence.
    - intros _. vm_compute. congruence.
    - exists 8, 0, 4096, (zrep 12 7), 1. 
      split; [unfold word; lia|]. split; [unfold word; lia|]. split; [unfold word; lia|].
      split; [apply Forall_word64; reflexivity|]. split; [reflexivity|]. split; [unfold word; lia|].
      exists [], (hp_block hp_entries ++ hp_block [12000; 13000; 14000; undefined]). split; reflexivity. }
  assert (H1 : indirect_at hp_file 32 146 hp_entries)
    by exact (hp_indirect hp_entries (hp_header 146 4) (hp_block [12000; 13000; 14000; undefined]) eq_refl).
  assert (H2 : indirect_at hp_file 32 295 [12000; 13000; 14000; undefined]).
  { replace hp_file with ((hp_header 146 4 ++ hp_block hp_entries) ++ hp_block [12000; 13000; 14000; undefined] ++ [])
      by (unfold hp_file; rewrite app_nil_r, <- app_assoc; reflexivity).
    apply (hp_indirect [12000; 13000; 14000; undefined] (hp_header 146 4 ++ hp_block hp_entries) []). reflexivity. }
  split; [|split].
  - exists 512, 1024, 32, 146, 4. split; [exact Hh|]. change (4 =? 0) with false. cbv iota.
    exists hp_entries. split; [exact H1|]. split; [reflexivity|].
    refine (byte_indirect _ _ _ _ _ _ 3 0 295 [12000; 13000; 14000; undefined] _ _ _ _ _ _ _ H2 _ _);
      [lia|lia|reflexivity|discriminate|reflexivity|vm_compute; split; congruence|reflexivity|].
    exact (byte_direct _ 512 1024 32 [12000; 13000; 14000; undefined] 600 0 1 13000 ltac:(lia) ltac:(lia) eq_refl
             ltac:(discriminate) ltac:(vm_compute; congruence) ltac:(vm_compute; split; congruence)).
  - exists 512, 1024, 32, 146, 4. split; [exact Hh|]. change (4 =? 0) with false. cbv iota.
    exists hp_entries. split; [exact H1|]. split; [reflexivity|].
    exact (byte_direct _ 512 1024 32 hp_entries 1100 0 2 2000 ltac:(lia) ltac:(lia) eq_refl
             ltac:(discriminate) ltac:(vm_compute; congruence) ltac:(vm_compute; split; congruence)).
  - vm_compute. reflexivity.
Qed.
Print Assumptions C69_heap.

(** ** C70 *)

(** The links of a tree are handed on in some order, each once, with the address of its message;
    so are attributes, with their creation orders.  Missing: trees whose nodes are so large that
    a count of records takes more than one byte, or so deep that a total takes more than two
    ([usual_widths]); trees without records. *)
Theorem C70_links_partial {S} f (onLink onAttr : Z -> Z -> Z -> S -> res S) ah N ha ba d t loc h :
  zlen f < 2 ^ 63 -> btree_at f 5 link_rec 32 N 11 ba d t -> usual_widths N 11 d ->
  Forall (fun r => in_heap f ha (br_off r) (loc r)) (all t) -> readHeap f ha = Ok h ->
  exists l, Permutation l (all t) /\ forall st,
    readBTree f onLink onAttr (Some h) ah ba st =
      rfold (fun r st => onLink (u64 (loc r)) (br_len r) 0 st) l st.
Proof.
  intros Hf Hb Hw Hl Hh. exists (visit t). split; [apply visit_all|]. intros st. eapply dense_links; eassumption.
Qed.
Theorem C70_attrs_partial {S} f (onLink onAttr : Z -> Z -> Z -> S -> res S) lh N ha ba d t loc h :
  zlen f < 2 ^ 63 -> btree_at f 8 attr_rec 40 N 17 ba d t -> usual_widths N 17 d ->
  Forall (fun r => in_heap f ha (br_off r) (loc r)) (all t) -> readHeap f ha = Ok h ->
  exists l, Permutation l (all t) /\ forall st,
    readBTree f onLink onAttr lh (Some h) ba st =
      rfold (fun r st => onAttr (u64 (loc r)) (br_len r) (br_order r) st) l st.
Proof.
  intros Hf Hb Hw Hl Hh. exists (visit t). split; [apply visit_all|]. intros st. eapply dense_attrs; eassumption.
Qed.

(** the sizes the HDF5 library uses for these trees: 512 byte nodes *)
Example C70_widths : usual_widths 512 11 3 /\ usual_widths 512 17 3.
Proof.
  split; (split; [reflexivity|]); intros [|[|[|k]]] H; try lia; reflexivity.
Qed.

(** A tree of depth 1: three records *)
Definition bt_r (off : Z) : brec := mkBrec off 20 (off + 1) 5 0.
Definition bt_tree : btree := BNode [bt_r 600] [BLeaf [bt_r 30]; BLeaf [bt_r 1100]].
Definition bt_pointers (a1 a2 : Z) : list (Z * btree) := [(a1, BLeaf [bt_r 30]); (a2, BLeaf [bt_r 1100])].
Definition bt_hd (ty N R root : Z) : bytes :=
  sealed (bs "BTHD" ++ [0; ty] ++ le 4 N ++ le 2 R ++ le 2 1 ++ [100; 40] ++ le 8 root ++ le 2 1 ++ le 8 3).
Definition bt_part (ty : Z) (rb : brec -> bytes) (N R base : Z) : bytes * bytes * bytes * bytes :=
  let l1 := sealed (leaf_bytes ty rb [bt_r 30]) in
  let l2 := sealed (leaf_bytes ty rb [bt_r 1100]) in
  let hd := bt_hd ty N R (base + 38) in
  let nl := zlen (node_bytes ty rb N R 0 [bt_r 600] (bt_pointers 0 0)) + 4 in
  let nd := sealed (node_bytes ty rb N R 0 [bt_r 600] (bt_pointers (base + 38 + nl) (base + 38 + nl + zlen l1))) in
  (hd, nd, l1, l2).
Definition bt_file (ty : Z) (rb : brec -> bytes) (N R : Z) : bytes :=
  let heap := hp_header 146 2 ++ hp_block [1000; 4000; 2000; 3000; undefined; undefined; undefined; undefined] in
  let '(hd, nd, l1, l2) := bt_part ty rb N R (zlen heap) in heap ++ hd ++ nd ++ l1 ++ l2.

Lemma has_at_check f a b : zlen (ztake a f) = a -> ztake (zlen b) (zdrop a f) = b -> has_at f a b.
Proof.
  intros H1 H2. exists (ztake a f), (zdrop (zlen b) (zdrop a f)). split; [|exact H1].
  rewrite <- (ztake_zdrop a f) at 1. f_equal. rewrite <- (ztake_zdrop (zlen b) (zdrop a f)) at 1. rewrite H2. reflexivity.
Qed.
Ltac here := apply has_at_check; vm_compute; reflexivity.

Lemma bt_at ty rb bits N R : word 32 N -> (forall r, zlen (rb r) = R) -> bits = 32 \/ bits = 40 ->
  let f := bt_file ty rb N R in
  let '(hd, nd, l1, l2) := bt_part ty rb N R 231 in
  let p := 231 + 38 in
  let ps := bt_pointers (p + zlen nd) (p + zlen nd + zlen l1) in
  zlen l1 <= N -> zlen l2 <= N -> zlen nd <= N -> p + zlen nd + zlen l1 < 2 ^ 64 ->
  nd = sealed (node_bytes ty rb N R 0 [bt_r 600] ps) ->
  has_at f 231 hd -> has_at f p nd -> has_at f (p + zlen nd) l1 -> has_at f (p + zlen nd + zlen l1) l2 ->
  btree_at f ty rb bits N R 231 1 bt_tree.
Proof.
  intros HN HR Hbits. cbv zeta. unfold bt_part. intros Z1 Z2 Z3 Z4 En H1 H2 H3 H4.
  set (f := bt_file ty rb N R) in *. clearbody f.
  assert (Hok : forall z, 0 <= z < 2 ^ 31 -> brec_ok bits (bt_r z)).
  { intros z Hz. unfold brec_ok, word; cbn [bt_r br_off br_len br_order br_hash br_flags].
    destruct Hbits as [-> | ->]; lia. }
  split; [exact HN|]. split; [exact HR|]. exists 100, 40, (231 + 38).
  split; [unfold word; lia|]. split; [unfold word; lia|]. split; [unfold word; lia|].
  split; [|split; [reflexivity|split; [reflexivity|exact H1]]].
  set (nl := zlen (sealed _)) in H3, H4, Z4. 
  pose proof (zlen_nonneg (sealed (leaf_bytes ty rb [bt_r 30]))) as P1. assert (P0 : 0 <= nl) by apply zlen_nonneg.
  change bt_tree with (BNode [bt_r 600] (map snd (bt_pointers (231 + 38 + nl)
    (231 + 38 + nl + zlen (sealed (leaf_bytes ty rb [bt_r 30])))))).
  unfold nl in *. rewrite En in Z3, H2. clear nl.
  constructor; [constructor; [apply Hok; lia|constructor]|discriminate|reflexivity|exact Z3|exact H2|].
  constructor; [|constructor; [|constructor]]; cbn [fst snd]; (split; [unfold word; lia|]).
  - constructor; [constructor; [apply Hok; lia|constructor]|discriminate|exact Z1|exact H3].
  - constructor; [constructor; [apply Hok; lia|constructor]|discriminate|exact Z2|exact H4].
Qed.
Lemma bt_links N : N = 512 \/ N = 4096 -> btree_at (bt_file 5 link_rec N 11) 5 link_rec 32 N 11 231 1 bt_tree.
Proof.
  intros H. pose proof (bt_at 5 link_rec 32 N 11) as G. destruct H as [-> | ->];
    (apply G; [unfold word; lia|apply link_rec_len|left; reflexivity|vm_compute; congruence|vm_compute; congruence
      |vm_compute; congruence|vm_compute; reflexivity|vm_compute; reflexivity|here|here|here|here]).
Qed.
Lemma bt_attrs : btree_at (bt_file 8 attr_rec 512 17) 8 attr_rec 40 512 17 231 1 bt_tree.
Proof.
  pose proof (bt_at 8 attr_rec 40 512 17) as G. 
    (apply G; [unfold word; lia|apply attr_rec_len|right; reflexivity|vm_compute; congruence|vm_compute; congruence
      |vm_compute; congruence|vm_compute; reflexivity|vm_compute; reflexivity|here|here|here|here]).
Qed.
Definition bt_loc (r : brec) : Z := if br_off r =? 600 then 4088 else if br_off r =? 30 then 1030 else 2076.
Lemma bt_heap ty rb N R : Forall (fun r => in_heap (bt_file ty rb N R) 0 (br_off r) (bt_loc r)) (all bt_tree).
Proof.
  set (es := [1000; 4000; 2000; 3000; undefined; undefined; undefined; undefined]).
  assert (E : exists post, bt_file ty rb N R = (hp_header 146 2 ++ hp_block es) ++ post).
  { unfold bt_file, bt_part. eexists. fold es. reflexivity. }
  destruct E as [post ->].
  assert (Hh : heap_at ((hp_header 146 2 ++ hp_block es) ++ post) 512 1024 32 0 146 2).
  { split; [|split; [|split; [|split]]].
    - split; [left; reflexivity|]. exists 9, 10. repeat apply conj; try lia; reflexivity.
    - unfold word; lia.
    - unfold word; lia.
    - intros _. vm_compute. congruence.
    - exists 8, 0, 4096, (zrep 12 7), 1.
      split; [unfold word; lia|]. split; [unfold word; lia|]. split; [unfold word; lia|].
      split; [apply Forall_word64; reflexivity|]. split; [reflexivity|]. split; [unfold word; lia|].
      exists [], (hp_block es ++ post). rewrite <- app_assoc. split; reflexivity. }
  assert (H1 : indirect_at ((hp_header 146 2 ++ hp_block es) ++ post) 32 146 es).
  { rewrite <- app_assoc. exact (hp_indirect es (hp_header 146 2) post eq_refl). }
  constructor; [|constructor; [|constructor; [|constructor]]];
    (exists 512, 1024, 32, 146, 2; split; [exact Hh|]; change (2 =? 0) with false; cbv iota;
     exists es; split; [exact H1|]; split; [reflexivity|]).
  - exact (byte_direct _ 512 1024 32 es 30 0 0 1000 ltac:(lia) ltac:(lia) eq_refl
             ltac:(discriminate) ltac:(vm_compute; congruence) ltac:(vm_compute; split; congruence)).
  - exact (byte_direct _ 512 1024 32 es 600 0 1 4000 ltac:(lia) ltac:(lia) eq_refl
             ltac:(discriminate) ltac:(vm_compute; congruence) ltac:(vm_compute; split; congruence)).
  - exact (byte_direct _ 512 1024 32 es 1100 0 2 2000 ltac:(lia) ltac:(lia) eq_refl
             ltac:(discriminate) ltac:(vm_compute; congruence) ltac:(vm_compute; split; congruence)).
Qed.

Definition collect (a l c : Z) (st : list (Z * Z * Z)) : res (list (Z * Z * Z)) := Ok (st ++ [(a, l, c)]).
Definition collected (f : bytes) : res (list (Z * Z * Z)) :=
  let* h := readHeap f 0 in readBTree f collect collect (Some h) (Some h) 231 [].
Example C70_example :
  btree_at (bt_file 5 link_rec 512 11) 5 link_rec 32 512 11 231 1 bt_tree /\ usual_widths 512 11 1 /\
  Forall (fun r => in_heap (bt_file 5 link_rec 512 11) 0 (br_off r) (bt_loc r)) (all bt_tree) /\
  collected (bt_file 5 link_rec 512 11) = Ok [(4088, 20, 0); (1030, 20, 0); (2076, 20, 0)] /\
  btree_at (bt_file 8 attr_rec 512 17) 8 attr_rec 40 512 17 231 1 bt_tree /\ usual_widths 512 17 1 /\
  Forall (fun r => in_heap (bt_file 8 attr_rec 512 17) 0 (br_off r) (bt_loc r)) (all bt_tree) /\
  collected (bt_file 8 attr_rec 512 17) = Ok [(4088, 20, 601); (1030, 20, 31); (2076, 20, 1101)].
Proof.
  split; [apply bt_links; left; reflexivity|]. split; [split; [reflexivity|intros k H; lia]|].
  split; [apply bt_heap|]. split; [vm_compute; reflexivity|].
  split; [apply bt_attrs|]. split; [split; [reflexivity|intros k H; lia]|]. split; [apply bt_heap|vm_compute; reflexivity].
Qed.

(** With nodes of 4096 bytes the counts take two bytes and the tree cannot be read. *)
Theorem C70_large_nodes_refuted : exists f t loc,
  btree_at f 5 link_rec 32 4096 11 231 1 t /\
  Forall (fun r => in_heap f 0 (br_off r) (loc r)) (all t) /\ collected f = Err EInternal.
Proof.
  exists (bt_file 5 link_rec 4096 11), bt_tree, bt_loc. split; [apply bt_links; right; reflexivity|].
  split; [apply bt_heap|vm_compute; reflexivity].
Qed.
(** A tree of no records has no root node, but the reader looks for it. *)
Theorem C70_no_records_refuted : exists f,
  has_at f 0 (sealed (bs "BTHD" ++ [0; 5] ++ le 4 512 ++ le 2 11 ++ le 2 0 ++ [100; 40] ++ le 8 undefined ++ le 2 0 ++ le 8 0)) /\
  readBTree f collect collect None None 0 [] <> Ok [].
Proof.
  exists (sealed (bs "BTHD" ++ [0; 5] ++ le 4 512 ++ le 2 11 ++ le 2 0 ++ [100; 40] ++ le 8 undefined ++ le 2 0 ++ le 8 0)).
  split; [here|]. vm_compute. discriminate.
Qed.
Print Assumptions C70_links_partial.
Print Assumptions C70_attrs_partial.
Print Assumptions C70_large_nodes_refuted.

(** ** C71 *)

(** The symbols of a symbol table whose B-tree has the leaves only are handed on in order, each
    with its name.  Missing: trees with more levels. *)
Theorem C71_symbols_partial {S} f (onSymbol : bytes -> Z -> S -> res (S * bool)) (on : bytes -> Z -> S -> res S)
  heap nm a l st :
  zlen f < 2 ^ 63 ->
  (forall name addr st, onSymbol name addr st = let* st := on name addr st in Ok (st, true)) ->
  symbol_table_at f 0 a l -> Forall (fun s => name_at f heap (sy_name s) (nm s)) l ->
  readSymbolTable f onSymbol a heap st = rfold (fun s st => on (nm s) (sy_addr s) st) l st.
Proof. intros Hf Ho H Hn. exact (table_read f onSymbol on heap nm Hf Ho a l st H Hn). Qed.

Definition sy_list : list symbol := [mkSymbol 8 700 None; mkSymbol 16 800 (Some (900, 950))].
Definition sy_snod : bytes := bs "SNOD" ++ [1; 0] ++ le 2 2 ++ flat_map symbol_bytes sy_list.
Definition sy_node (level : Z) (child : Z) : bytes :=
  bs "TREE" ++ [0; level] ++ le 2 1 ++ le 8 undefined ++ le 8 undefined ++ le 8 0 ++ le 8 child ++ le 8 16 ++ zrep 4 0.
Definition sy_heap : bytes :=
  (bs "HEAP" ++ [0; 0; 0; 0] ++ le 8 24 ++ le 8 0 ++ le 8 32) ++ zrep 8 0 ++ bs "lat" ++ zrep 5 0 ++ bs "inner" ++ zrep 3 0.
(** the heap, the symbol table node, the node of level 0, a node of level 1 *)
Definition sy_file : bytes := sy_heap ++ sy_snod ++ sy_node 0 56 ++ sy_node 1 144.
Definition sy_nm (s : symbol) : bytes := if sy_name s =? 8 then bs "lat" else bs "inner".
Definition sy_on (name : bytes) (addr : Z) (st : list (bytes * Z)) : res (list (bytes * Z)) := Ok (st ++ [(name, addr)]).
Definition sy_step (name : bytes) (addr : Z) (st : list (bytes * Z)) : res (list (bytes * Z) * bool) :=
  let* st := sy_on name addr st in Ok (st, true).

Lemma sy_names : Forall (fun s => name_at sy_file 0 (sy_name s) (sy_nm s)) sy_list.
Proof.
  constructor; [|constructor; [|constructor]]; exists 24, 0, 32;
    (split; [unfold word; lia|]; split; [unfold word; lia|]; split; [unfold word; lia|];
     split; [cbn; lia|]; split; [here|]; split; [vm_compute; congruence|]; split; [vm_compute; congruence|];
     split; [discriminate|]; split; [|here]; repeat (constructor; [discriminate|]); constructor).
Qed.
Lemma sy_leaf : symtree_at sy_file 0 undefined undefined 144 sy_list.
Proof.
  change sy_list with (List.concat [sy_list]). apply (sym_leaf _ _ _ _ [0; 16] [56]).
  - split; [reflexivity|]. split; [apply Forall_word64; reflexivity|]. split; [apply Forall_word64; reflexivity|].
    split; [reflexivity|]. split; [unfold word; lia|]. split; [unfold word, undefined; lia|].
    split; [unfold word, undefined; lia|]. split; [vm_compute; congruence|here].
  - constructor; [|constructor]. split; [|split; [reflexivity|here]].
    constructor; [|constructor; [|constructor]]; (split; [cbn [sy_name]; unfold word; lia|]);
      (split; [cbn [sy_addr]; unfold word; lia|]); cbn [sy_cache]; [exact I|unfold word; lia].
Qed.
Example C71_example : symbol_table_at sy_file 0 144 sy_list /\
  Forall (fun s => name_at sy_file 0 (sy_name s) (sy_nm s)) sy_list /\
  readSymbolTable sy_file sy_step 144 0 [] = Ok [(bs "lat", 700); (bs "inner", 800)].
Proof. split; [exact sy_leaf|]. split; [exact sy_names|vm_compute; reflexivity]. Qed.

(** A tree with one more level is not read at all. *)
Theorem C71_levels_refuted : exists f a heap nm l,
  symbol_table_at f 1 a l /\ Forall (fun s => name_at f heap (sy_name s) (nm s)) l /\
  readSymbolTable f sy_step a heap [] = Err EBadMagic.
Proof.
  exists sy_file, 196, 0, sy_nm, sy_list. split; [|split; [exact sy_names|vm_compute; reflexivity]].
  unfold symbol_table_at. change sy_list with (List.concat [sy_list]).
  apply (sym_node _ _ _ _ _ [0; 16] [144]).
  - split; [reflexivity|]. split; [apply Forall_word64; reflexivity|]. split; [apply Forall_word64; reflexivity|].
    split; [reflexivity|]. split; [unfold word; lia|]. split; [unfold word, undefined; lia|].
    split; [unfold word, undefined; lia|]. split; [vm_compute; congruence|here].
  - constructor; [|constructor]. exists undefined, undefined. exact sy_leaf.
Qed.
Print Assumptions C71_symbols_partial.
Print Assumptions C71_levels_refuted.
Print Assumptions C70_no_records_refuted.
