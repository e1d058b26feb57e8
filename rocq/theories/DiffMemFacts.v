(** The search of the line difference on the heap does what the search on
    lists does: every access is to a live block and the block of diagonals is
    the only one it changes. *)
From Verif Require Import Base Str Dec DiffModel DiffMemModel.
Local Open Scope Z_scope.

(** The block [p] holds the whole list [v]. *)
Definition holds (h : heap) (p : nat) (v : list Z) : Prop :=
  exists A, h_blk h p = Some (Z.of_nat (length v), A) /\
    forall i, (i < length v)%nat -> A (Z.of_nat i) = Some (nth i v 0).

Lemma hread_holds h p v i : holds h p v -> hread p i h = (h, vread None v i).
Proof.
  intros (A & E & H). unfold hread. rewrite E. unfold rda, vread.
  destruct (Z.leb_spec 0 i); cbn [andb]; [|reflexivity].
  destruct (Z.ltb_spec i (Z.of_nat (length v))); [|reflexivity].
  specialize (H (Z.to_nat i)). rewrite Z2Nat.id in H by lia. rewrite H by lia. reflexivity.
Qed.
Lemma hread_out_holds oob h p v i : holds h p v -> hread_out oob p i h = (h, vread oob v i).
Proof.
  intros (A & E & H). unfold hread_out. rewrite E. unfold rda, vread.
  destruct (Z.leb_spec 0 i); cbn [andb]; [|destruct oob; reflexivity].
  destruct (Z.ltb_spec i (Z.of_nat (length v))); [|destruct oob; reflexivity].
  specialize (H (Z.to_nat i)). rewrite Z2Nat.id in H by lia. rewrite H by lia. reflexivity.
Qed.

Section Sim.
Variables (h0 : heap) (d : fumoffu) (xv yv : list Z) (n : Z).
Hypothesis Hx : holds h0 (d_vec d false) xv.
Hypothesis Hy : holds h0 (d_vec d true) yv.
Hypothesis Nx : d_vec d false <> d_diag d.
Hypothesis Ny : d_vec d true <> d_diag d.

(** Only the diagonals may differ from [h0]. *)
Definition framed (h : heap) : Prop :=
  h_next h = h_next h0 /\ (forall b, b <> d_diag d -> h_blk h b = h_blk h0 b) /\
  exists D, h_blk h (d_diag d) = Some (n, D).
Definition st (D : arr) (h : heap) : Prop :=
  h_next h = h_next h0 /\ (forall b, b <> d_diag d -> h_blk h b = h_blk h0 b) /\
  h_blk h (d_diag d) = Some (n, D).
Lemma st_framed D h : st D h -> framed h.
Proof. intros (A & B & C). split; [exact A|]. split; [exact B|]. exists D; exact C. Qed.
Lemma holds_frame h p v : holds h0 p v -> p <> d_diag d -> framed h -> holds h p v.
Proof. intros (A & E & H) Hp (_ & F & _). exists A. rewrite F by exact Hp. auto. Qed.

Definition sim {A B} (v : B -> A) (mm : B -> arr) (m : MH A) (r : res B) (h : heap) : Prop :=
  match r with
  | Ok b => exists h', m h = (h', Ok (v b)) /\ st (mm b) h'
  | Throw e => exists h', m h = (h', Throw e) /\ framed h'
  | UB => exists h', m h = (h', UB) /\ framed h'
  | Abort => exists h', m h = (h', Abort) /\ framed h'
  | Hang => exists h', m h = (h', Hang) /\ framed h'
  end.

Lemma sim_bind {A B A' B'} (v : B -> A) mm (v' : B' -> A') mm' m r k k' h :
  sim v mm m r h -> (forall b h', st (mm b) h' -> sim v' mm' (k (v b)) (k' b) h') ->
  sim v' mm' (hbind m k) (bind r k') h.
Proof.
  intros H K. destruct r; cbn [bind]; destruct H as (h' & E & S); cbn [sim];
    try (exists h'; unfold hbind; rewrite E; auto; fail).
  specialize (K a h' S). unfold sim in *. unfold hbind. rewrite E. exact K.
Qed.
Lemma sim_read {A A' B'} (v' : B' -> A') mm' (m : MH A) r k k' D h :
  st D h -> m h = (h, r) -> (forall a, r = Ok a -> sim v' mm' (k a) (k' a) h) ->
  sim v' mm' (hbind m k) (bind r k') h.
Proof.
  intros S E K. destruct r; cbn [bind sim];
    try (exists h; unfold hbind; rewrite E; split; [reflexivity|eapply st_framed; exact S]).
  specialize (K a eq_refl). unfold sim in *. unfold hbind. rewrite E. exact K.
Qed.
Lemma sim_ret {A B} (v : B -> A) mm (a : A) b h : a = v b -> st (mm b) h -> sim v mm (hret a) (Ok b) h.
Proof. intros -> S. exists h. split; [reflexivity|exact S]. Qed.
Lemma sim_fail {A B} (v : B -> A) mm D h (m : MH A) (r : res B) : st D h ->
  match r with Ok _ => False | Throw e => m = hfail (Throw e) | UB => m = hfail UB
   | Abort => m = hfail Abort | Hang => m = hfail Hang end -> sim v mm m r h.
Proof.
  intros S H. destruct r; [contradiction| | | |]; subst m; (exists h; split; [reflexivity|eapply st_framed; exact S]).
Qed.

Lemma read_x D h i : st D h -> hread (d_vec d false) i h = (h, vread None xv i).
Proof. intros S. apply hread_holds. apply holds_frame; [exact Hx|exact Nx|eapply st_framed; exact S]. Qed.
Lemma read_y D h i : st D h -> hread (d_vec d true) i h = (h, vread None yv i).
Proof. intros S. apply hread_holds. apply holds_frame; [exact Hy|exact Ny|eapply st_framed; exact S]. Qed.
Lemma read_xo o D h i : st D h -> hread_out o (d_vec d false) i h = (h, vread o xv i).
Proof. intros S. apply hread_out_holds. apply holds_frame; [exact Hx|exact Nx|eapply st_framed; exact S]. Qed.
Lemma read_yo o D h i : st D h -> hread_out o (d_vec d true) i h = (h, vread o yv i).
Proof. intros S. apply hread_out_holds. apply holds_frame; [exact Hy|exact Ny|eapply st_framed; exact S]. Qed.
Lemma read_d D h i : st D h -> hread (d_diag d) i h = (h, rda n D i).
Proof. intros (_ & _ & E). unfold hread. rewrite E. reflexivity. Qed.
Lemma write_d D h i v : st D h -> sim (fun _ => tt) (fun D => D) (hwrite (d_diag d) i v) (wra n D i v) h.
Proof.
  intros S. pose proof S as (A & B & E). unfold hwrite. unfold wra.
  destruct ((0 <=? i) && (i <? n)) eqn:C; cbn [sim].
  - rewrite E. unfold wra. rewrite C. eexists. split; [reflexivity|]. split; [exact A|]. split.
    + intros b Hb. cbn [set_blk h_blk]. destruct (Nat.eqb_spec b (d_diag d)); [contradiction|]. apply B; exact Hb.
    + cbn [set_blk h_blk]. rewrite Nat.eqb_refl. reflexivity.
  - rewrite E. unfold wra. rewrite C. exists h. split; [reflexivity|eapply st_framed; exact S].
Qed.
Lemma write_if c D h i v : st D h ->
  sim (fun _ => tt) (fun D => D) (hwrite_if c (d_diag d) i v) (if c then wra n D i v else Ok D) h.
Proof.
  intros S. unfold hwrite_if. destruct c; [apply write_d; exact S|].
  exists h. split; [reflexivity|exact S].
Qed.

(** Pieces that only read. *)
Definition quiet {A} (m : MH A) (r : res A) : Prop := forall D h, st D h -> m h = (h, r).
Lemma quiet_bind {A B} (m : MH A) r (k : A -> MH B) k' :
  quiet m r -> (forall a, quiet (k a) (k' a)) -> quiet (hbind m k) (bind r k').
Proof.
  intros Q K D h S. unfold hbind. rewrite (Q D h S). destruct r; try reflexivity. apply (K a D h S).
Qed.
Lemma quiet_ret {A} (a : A) : quiet (hret a) (Ok a).
Proof. intros D h _. reflexivity. Qed.
Lemma quiet_fail {A} (r : res A) : quiet (hfail r) r.
Proof. intros D h _. reflexivity. Qed.
Lemma quiet_x i : quiet (hread (d_vec d false) i) (vread None xv i).
Proof. intros D h S. eapply read_x; exact S. Qed.
Lemma quiet_y i : quiet (hread (d_vec d true) i) (vread None yv i).
Proof. intros D h S. eapply read_y; exact S. Qed.
Lemma quiet_xo o i : quiet (hread_out o (d_vec d false) i) (vread o xv i).
Proof. intros D h S. eapply read_xo; exact S. Qed.
Lemma quiet_yo o i : quiet (hread_out o (d_vec d true) i) (vread o yv i).
Proof. intros D h S. eapply read_yo; exact S. Qed.

Ltac q := repeat first
  [ apply quiet_ret | apply quiet_fail | apply quiet_x | apply quiet_y | apply quiet_xo | apply quiet_yo
  | apply quiet_bind | progress intros
  | match goal with |- context [if ?b then _ else _] => destruct b end ].

Lemma fsnake_q xe ye : forall f x y, quiet (m_fsnake f d xe ye x y) (fsnake f xv yv xe ye x y).
Proof. induction f as [|f IH]; intros x y; cbn [m_fsnake fsnake]; q; apply IH. Qed.
Lemma bsnake_q xb yb : forall f x y, quiet (m_bsnake f d xb yb x y) (bsnake f xv yv xb yb x y).
Proof. induction f as [|f IH]; intros x y; cbn [m_bsnake bsnake]; q; apply IH. Qed.
Lemma eat_back_q xb yb : forall f x y, quiet (m_eat_back f d xb yb x y) (eat_back f xv yv xb yb x y).
Proof. induction f as [|f IH]; intros x y; cbn [m_eat_back eat_back]; q; apply IH. Qed.
Lemma eat_fwd_q xe ye : forall f x y, quiet (m_eat_fwd f d xe ye x y) (eat_fwd f xv yv xe ye x y).
Proof. induction f as [|f IH]; intros x y; cbn [m_eat_fwd eat_fwd]; q; apply IH. Qed.

Lemma floop_sim fo bo xe ye odd fmin bmin bmax len : forall f k D h, st D h ->
  sim snd fst (m_floop f d fo bo xe ye odd fmin bmin bmax len k)
    (floop f n fo bo xv yv xe ye odd fmin bmin bmax len k D) h.
Proof.
  induction f as [|f IH]; intros k D h S; cbn [m_floop floop].
  { eapply sim_fail; [exact S|reflexivity]. }
  destruct (k <? fmin). { apply sim_ret; [reflexivity|exact S]. }
  eapply sim_read; [exact S|eapply read_d; exact S|]. intros lo _.
  eapply sim_read; [exact S|eapply read_d; exact S|]. intros hi _. cbv zeta.
  eapply sim_read; [exact S|eapply fsnake_q; exact S|]. intros [x y] _.
  eapply sim_bind; [apply write_d; exact S|]. intros D' h' S'.
  destruct (odd && (bmin <=? k) && (k <=? bmax)); [|apply IH; exact S'].
  eapply sim_read; [exact S'|eapply read_d; exact S'|]. intros b _.
  destruct (b <=? x); [apply sim_ret; [reflexivity|exact S']|apply IH; exact S'].
Qed.
Lemma bloop_sim fo bo xb yb odd bmin fmin fmax len : forall f k D h, st D h ->
  sim snd fst (m_bloop f d fo bo xb yb odd bmin fmin fmax len k)
    (bloop f n fo bo xv yv xb yb odd bmin fmin fmax len k D) h.
Proof.
  induction f as [|f IH]; intros k D h S; cbn [m_bloop bloop].
  { eapply sim_fail; [exact S|reflexivity]. }
  destruct (k <? bmin). { apply sim_ret; [reflexivity|exact S]. }
  eapply sim_read; [exact S|eapply read_d; exact S|]. intros lo _.
  eapply sim_read; [exact S|eapply read_d; exact S|]. intros hi _. cbv zeta.
  eapply sim_read; [exact S|eapply bsnake_q; exact S|]. intros [x y] _.
  eapply sim_bind; [apply write_d; exact S|]. intros D' h' S'.
  destruct (negb odd && (fmin <=? k) && (k <=? fmax)); [|apply IH; exact S'].
  eapply sim_read; [exact S'|eapply read_d; exact S'|]. intros b _.
  destruct (x <=? b); [apply sim_ret; [reflexivity|exact S']|apply IH; exact S'].
Qed.
Lemma mloop_sim fo bo xb xe yb ye dmin dmax odd : forall f len fmin fmax bmin bmax D h, st D h ->
  sim fst snd (m_mloop f d fo bo xb xe yb ye dmin dmax odd len fmin fmax bmin bmax)
    (mloop f n fo bo xv yv xb xe yb ye dmin dmax odd len fmin fmax bmin bmax D) h.
Proof.
  induction f as [|f IH]; intros len fmin fmax bmin bmax D h S; cbn [m_mloop mloop].
  { eapply sim_fail; [exact S|reflexivity]. }
  eapply sim_bind; [apply write_if; exact S|]. intros D1 h1 S1.
  eapply sim_bind; [apply write_if; exact S1|]. intros D2 h2 S2.
  eapply sim_bind; [apply floop_sim; exact S2|]. intros [D3 p] h3 S3. cbn [fst snd] in *.
  destruct p as [p|]; [apply sim_ret; [reflexivity|exact S3]|]. cbv zeta.
  eapply sim_bind; [apply write_if; exact S3|]. intros D4 h4 S4.
  eapply sim_bind; [apply write_if; exact S4|]. intros D5 h5 S5.
  eapply sim_bind; [apply bloop_sim; exact S5|]. intros [D6 p] h6 S6. cbn [fst snd] in *.
  destruct p as [p|]; [apply sim_ret; [reflexivity|exact S6]|]. apply IH; exact S6.
Qed.
Lemma FindEditMidPoint_sim xb xe yb ye D h : st D h ->
  sim fst snd (m_FindEditMidPoint d xb xe yb ye) (FindEditMidPoint n xv yv xb xe yb ye D) h.
Proof.
  intros S. unfold m_FindEditMidPoint, FindEditMidPoint. cbv zeta.
  eapply sim_bind; [apply write_d; exact S|]. intros D1 h1 S1.
  eapply sim_bind; [apply write_d; exact S1|]. intros D2 h2 S2.
  apply mloop_sim; exact S2.
Qed.

Lemma asserts_q oob xb xe yb ye : quiet (m_asserts d oob xb xe yb ye)
  (_ <-- assert_ (negb (xe - xb =? 0) || negb (ye - yb =? 0)) ;;
   a <-- vread (xo oob) xv xb ;; b <-- vread (yo oob) yv yb ;;
   _ <-- assert_ (negb (a =? b) || (xe - xb =? 0) || (ye - yb =? 0)) ;;
   a <-- vread (xo oob) xv (xe - 1) ;; b <-- vread (yo oob) yv (ye - 1) ;;
   assert_ (negb (a =? b) || (xe - xb =? 0) || (ye - yb =? 0))).
Proof.
  unfold m_asserts.
  apply quiet_bind; [apply quiet_fail|intros _].
  apply quiet_bind; [apply quiet_xo|intros a]. apply quiet_bind; [apply quiet_yo|intros b].
  apply quiet_bind; [apply quiet_fail|intros _].
  apply quiet_bind; [apply quiet_xo|intros a']. apply quiet_bind; [apply quiet_yo|intros b'].
  apply quiet_fail.
Qed.

Lemma merge_sim l1 l2 D h : st D h ->
  sim fst snd (hfail (merge_edits l1 l2)) (l <-- merge_edits l1 l2 ;; Ok (l, D)) h.
Proof.
  intros S. destruct (merge_edits l1 l2); cbn [bind sim]; exists h; (split; [reflexivity|]);
    first [exact S|eapply st_framed; exact S].
Qed.

Lemma GenerateEditList_sim asserts oob : forall f xb xe yb ye D h, st D h ->
  sim fst snd (m_GenerateEditList f asserts oob d xb xe yb ye)
    (GenerateEditList f asserts oob n xv yv xb xe yb ye D) h.
Proof.
  induction f as [|f IH]; intros xb xe yb ye D h S; cbn [m_GenerateEditList GenerateEditList].
  { eapply sim_fail; [exact S|reflexivity]. }
  eapply sim_read; [exact S| |intros _ _].
  { destruct asserts; [eapply asserts_q; exact S|reflexivity]. }
  destruct (xe - xb =? 0). { apply sim_ret; [reflexivity|exact S]. }
  destruct (ye - yb =? 0). { apply sim_ret; [reflexivity|exact S]. }
  destruct ((0 <? xe - xb) && (0 <? ye - yb)); [|apply sim_ret; [reflexivity|exact S]].
  eapply sim_bind; [apply FindEditMidPoint_sim; exact S|]. intros [[[xm ym] l] D1] h1 S1. cbn [fst snd] in *.
  destruct (1 <? l).
  - eapply sim_read; [exact S1|eapply read_xo; exact S1|]. intros a _.
    eapply sim_read; [exact S1|eapply read_yo; exact S1|]. intros b _.
    destruct ((a =? b) && negb (xm =? xb) && negb (ym =? yb)).
    + eapply sim_bind; [apply IH; exact S1|]. intros [l2 D2] h2 S2. cbn [fst snd] in *.
      eapply sim_read; [exact S2|eapply eat_back_q; exact S2|]. intros [x' y'] _.
      eapply sim_bind; [apply IH; exact S2|]. intros [l1 D3] h3 S3. cbn [fst snd] in *.
      apply merge_sim; exact S3.
    + eapply sim_bind; [apply IH; exact S1|]. intros [l1 D2] h2 S2. cbn [fst snd] in *.
      eapply sim_read; [exact S2|eapply eat_fwd_q; exact S2|]. intros [x' y'] _.
      eapply sim_bind; [apply IH; exact S2|]. intros [l2 D3] h3 S3. cbn [fst snd] in *.
      apply merge_sim; exact S3.
  - destruct (l =? 0).
    + destruct asserts; [eapply sim_fail; [exact S1|reflexivity]|apply sim_ret; [reflexivity|exact S1]].
    + eapply sim_read; [exact S1|eapply read_xo; exact S1|]. intros a _.
      eapply sim_read; [exact S1|eapply read_yo; exact S1|]. intros b _.
      destruct (xe - xb <? ye - yb); (apply sim_ret; [reflexivity|exact S1]).
Qed.
End Sim.

(** The whole search: the same edits, or the same failure. *)
Lemma edits_mem h0 d xv yv asserts oob :
  holds h0 (d_vec d false) xv -> holds h0 (d_vec d true) yv ->
  d_vec d false <> d_diag d -> d_vec d true <> d_diag d ->
  d_nlines d false = Z.of_nat (length xv) -> d_nlines d true = Z.of_nat (length yv) ->
  h_blk h0 (d_diag d) = Some ((Z.of_nat (length xv) + Z.of_nat (length yv)) * 2 + 6, fun _ => None) ->
  exists h', m_edits asserts oob d h0 = (h', edits_of asserts oob xv yv) /\
  framed h0 d ((Z.of_nat (length xv) + Z.of_nat (length yv)) * 2 + 6) h'.
Proof.
  intros Hx Hy Nx Ny E0 E1 Ed. set (n := (Z.of_nat (length xv) + Z.of_nat (length yv)) * 2 + 6) in *.
  assert (S : st h0 d n (fun _ => None) h0) by (split; [reflexivity|split; [reflexivity|exact Ed]]).
  unfold m_edits, edits_of. cbv zeta. rewrite E0, E1, !Nat2Z.id. fold n.
  unfold hbind at 1. rewrite (eat_fwd_q h0 d xv yv n Hx Hy Nx Ny _ _ _ _ _ _ h0 S).
  destruct (eat_fwd _ _ _ _ _ _ _) as [[xb yb]| | | |]; cbn [bind];
    try (exists h0; split; [reflexivity|eapply st_framed; exact S]).
  unfold hbind at 1. rewrite (eat_back_q h0 d xv yv n Hx Hy Nx Ny _ _ _ _ _ _ h0 S).
  destruct (eat_back _ _ _ _ _ _ _) as [[xe ye]| | | |]; cbn [bind];
    try (exists h0; split; [reflexivity|eapply st_framed; exact S]).
  destruct (negb (xb =? xe) || negb (yb =? ye)); [|exists h0; split; [reflexivity|eapply st_framed; exact S]].
  pose proof (GenerateEditList_sim h0 d xv yv n Hx Hy Nx Ny asserts oob
    (Datatypes.S (Z.to_nat (xe - xb + (ye - yb)))) xb xe yb ye (fun _ => None) h0 S) as G.
  destruct (GenerateEditList _ _ _ _ _ _ _ _ _ _ _) as [[l D]| | | |]; cbn [sim] in G; destruct G as (h' & E & F);
    rewrite E; cbn [bind fst snd]; exists h'; (split; [reflexivity|]); first [exact F|eapply st_framed; exact F].
Qed.
