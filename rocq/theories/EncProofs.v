(** Encryption of the staged library. *)
From Coq Require Import Permutation.
From Verif Require Import Base BaseProofs ArgsModel ArgsSpec ManifestModel ManifestSpec WireModel CryptModel CryptSpec CbcProofs MaskProofs DemaskProofs CryptProofs
  PackageModel PackageSpec TreeProofs CopyProofs.

(** ** Equations *)

Definition enc_one (pr : primitives) (K : bytes) (w : world) (top : bytes) (rel : option bytes) (es : entries) (n : bytes) (x : tree) (tbl : table)
  : outcome (bool * table * tree * list (bytes * bytes)) :=
  if caseeq n PACKAGE_MO then Ok (true, tbl, x, [])
  else
    do p <- fit (MAX_PATH_LENGTH + 1) (rel_join rel n) ;
    match x with
    | Folder _ => do (ok, tbl1, x1) <- encrypt_dir pr K w top (Some p) x tbl ; Ok (ok, tbl1, x1, [])
    | Reg _ => if is_modelica n then
                 do (ok, tbl1, new) <- encrypt_file pr K w top p n x es tbl ; Ok (ok, tbl1, x, new)
               else Ok (true, tbl, x, [])
    | Other => Ok (true, tbl, x, [])
    end.
Definition enc_list (pr : primitives) (K : bytes) (w : world) (top : bytes) (rel : option bytes) (es : entries)
  : entries -> table -> outcome (bool * table * entries * list (bytes * bytes)) :=
  fix go (l : entries) (tbl : table) : outcome (bool * table * entries * list (bytes * bytes)) :=
    match l with
    | [] => Ok (true, tbl, [], [])
    | (n, x) :: r =>
        do (ok, tbl1, x1, new1) <- enc_one pr K w top rel es n x tbl ;
        if ok then
          do (ok2, tbl2, r2, new2) <- go r tbl1 ;
          Ok (ok2, tbl2, (n, x1) :: r2, new1 ++ new2)
        else Ok (false, tbl1, (n, x1) :: r, new1)
    end.
Lemma enc_list_cons pr K w top rel es n x r tbl : enc_list pr K w top rel es ((n, x) :: r) tbl =
  do (ok, tbl1, x1, new1) <- enc_one pr K w top rel es n x tbl ;
  if ok then
    do (ok2, tbl2, r2, new2) <- enc_list pr K w top rel es r tbl1 ;
    Ok (ok2, tbl2, (n, x1) :: r2, new1 ++ new2)
  else Ok (false, tbl1, (n, x1) :: r, new1).
Proof. reflexivity. Qed.
Lemma encrypt_folder pr K w top rel es tbl : encrypt_dir pr K w top rel (Folder es) tbl =
  do full <- fit (MAX_PATH_LENGTH + 1) (match rel with Some r => top ++ [SLASH] ++ r | None => top end) ;
  do pkg <- fit (MAX_PATH_LENGTH + 1) (full ++ B "/package.mo") ;
  do prel <- fit (MAX_PATH_LENGTH + 1) (rel_join rel PACKAGE_MO) ;
  do (ok, tbl1, new1) <-
    match lookup es PACKAGE_MO with
    | Some x => if w_open w pkg then encrypt_file pr K w top prel PACKAGE_MO x es tbl else Ok (true, tbl, [])
    | None => Ok (true, tbl, [])
    end ;
  if ok && w_opendir w Encrypting full then
    do (ok2, tbl2, es2, new2) <- enc_list pr K w top rel es es tbl1 ;
    Ok (ok2, tbl2, Folder (set_files (new1 ++ new2) es2))
  else Ok (false, tbl1, Folder (set_files new1 es)).
Proof. reflexivity. Qed.

(** ** What is encrypted *)

Record estep := { s_dir : list bytes; s_name : bytes; s_data : bytes; s_out : bytes }.
Definition s_rel (s : estep) : bytes := path_of (s_dir s) (s_name s).
Inductive Trace (pr : primitives) (K : bytes) (w : world) : table -> list estep -> table -> Prop :=
| Trace_nil t : Trace pr K w t [] t
| Trace_cons t s t1 l t2 : cr_encrypt pr K t (s_rel s) (w_iv w (s_rel s)) (firstn (p_len pr) (w_mask w (s_rel s))) (s_data s) = Ok (t1, Some (s_out s)) ->
    Trace pr K w t1 l t2 -> Trace pr K w t (s :: l) t2.
Lemma trace_app pr K w t l t1 l' t2 : Trace pr K w t l t1 -> Trace pr K w t1 l' t2 -> Trace pr K w t (l ++ l') t2.
Proof. induction 1 as [t|t s t1 l t3 E _ IH]; intros H; [exact H|]. cbn [app]. econstructor; [exact E|now apply IH]. Qed.

(** The directory [rd] as given to the functions. *)
Definition relstr (rd : list bytes) : option bytes := match rd with [] => None | _ => Some (slashed rd) end.
Lemma rel_join_path rd n : rel_join (relstr rd) n = path_of rd n.
Proof. destruct rd as [|c r]; [reflexivity|]. cbn [relstr rel_join]. rewrite <- slashed_path. rewrite slashed_snoc by discriminate. reflexivity. Qed.
Lemma relstr_snoc rd n : relstr (rd ++ [n]) = Some (path_of rd n).
Proof. rewrite <- slashed_path. destruct rd; reflexivity. Qed.

Definition Ordered (l : list estep) : Prop :=
  forall pre f post, l = pre ++ f :: post -> s_name f = PACKAGE_MO -> forall g, In g pre -> ~ Above (s_dir f) (s_dir g).
Definition s_key (s : estep) := (s_dir s, s_name s).

Lemma app_split {A} (l1 l2 pre : list A) f post : l1 ++ l2 = pre ++ f :: post ->
  (exists q, l1 = pre ++ f :: q /\ post = q ++ l2) \/ (exists q, pre = l1 ++ q /\ l2 = q ++ f :: post).
Proof.
  revert pre. induction l1 as [|a l1 IH]; intros pre H; cbn [app] in H.
  - right. exists pre. now split.
  - destruct pre as [|b pre]; cbn [app] in H; injection H as <- H.
    + left. exists l1. split; [reflexivity|]. now symmetry.
    + destruct (IH pre H) as [(q & -> & ->)|(q & -> & ->)]; [left; now exists q|right; now exists q].
Qed.
Lemma ordered_app l1 l2 : Ordered l1 -> Ordered l2 ->
  (forall f g, In f l2 -> s_name f = PACKAGE_MO -> In g l1 -> ~ Above (s_dir f) (s_dir g)) -> Ordered (l1 ++ l2).
Proof.
  intros O1 O2 X pre f post E P g I. destruct (app_split _ _ _ _ _ E) as [(q & -> & ->)|(q & -> & ->)].
  - now apply (O1 pre f q).
  - apply in_app_or in I. destruct I as [I|I]; [|now apply (O2 q f post)]. apply X; [|exact P|exact I]. apply in_or_app. right. now left.
Qed.
Lemma nodup_app {A} (l1 l2 : list A) : NoDup l1 -> NoDup l2 -> (forall x, In x l1 -> In x l2 -> False) -> NoDup (l1 ++ l2).
Proof.
  induction l1 as [|a l1 IH]; intros N1 N2 X; [exact N2|]. inversion N1; subst. cbn [app]. constructor.
  - rewrite in_app_iff. intros [H|H]; [contradiction|]. apply (X a); [now left|exact H].
  - apply IH; [assumption|exact N2|]. intros x I1 I2. apply (X x); [now right|exact I2].
Qed.

(** Steps and tree afterwards. *)
Definition Good (w : world) (rd : list bytes) (t t' : tree) (l : list estep) : Prop :=
  (forall s, In s l -> exists dir, s_dir s = rd ++ dir /\ At t (dir ++ [s_name s]) (Reg (s_data s)) /\
     At t' (dir ++ [s_name s ++ B "c"]) (Reg (s_out s)) /\ is_modelica (s_name s) = true /\
     (caseeq (s_name s) PACKAGE_MO = true -> s_name s = PACKAGE_MO) /\ Forall (fun c => caseeq c PACKAGE_MO = false) dir) /\
  NoDup (map s_key l) /\ Ordered l /\
  (forall p d, At t' p (Reg d) -> At t p (Reg d) \/ exists s dir, In s l /\ s_dir s = rd ++ dir /\ p = dir ++ [s_name s ++ B "c"] /\ d = s_out s) /\
  (forall p n d, At t (p ++ [n]) (Reg d) -> At t' (p ++ [n]) (Reg d) \/ exists s, In s l /\ s_dir s = rd ++ p /\ n = s_name s ++ B "c") /\
  ((forall p, w_open w p = true) -> forall dir n d, At t (dir ++ [n]) (Reg d) -> is_modelica n = true ->
     (caseeq n PACKAGE_MO = true -> n = PACKAGE_MO) -> Forall (fun c => caseeq c PACKAGE_MO = false) dir ->
     exists s, In s l /\ s_dir s = rd ++ dir /\ s_name s = n /\ s_data s = d) /\
  Proper t'.

(** One entry. *)
Inductive EntryOk (w : world) (rd : list bytes) (es : entries) : bytes -> tree -> tree -> list estep -> list (bytes * bytes) -> Prop :=
| E_skip n x : caseeq n PACKAGE_MO = true \/ (exists d, x = Reg d /\ is_modelica n = false) \/ x = Other -> EntryOk w rd es n x x [] []
| E_file n d out : caseeq n PACKAGE_MO = false -> is_modelica n = true -> (forall fs, lookup es (n ++ B "c") <> Some (Folder fs)) ->
    EntryOk w rd es n (Reg d) (Reg d) [{| s_dir := rd; s_name := n; s_data := d; s_out := out |}] [(n ++ B "c", out)]
| E_dir n fs x1 l : caseeq n PACKAGE_MO = false -> Good w (rd ++ [n]) (Folder fs) x1 l -> EntryOk w rd es n (Folder fs) x1 l [].
Inductive LoopOk (w : world) (rd : list bytes) (es : entries) : entries -> entries -> list estep -> list (bytes * bytes) -> Prop :=
| L_nil : LoopOk w rd es [] [] [] []
| L_cons n x x1 tr1 new1 r r2 tr2 new2 : EntryOk w rd es n x x1 tr1 new1 -> LoopOk w rd es r r2 tr2 new2 ->
    LoopOk w rd es ((n, x) :: r) ((n, x1) :: r2) (tr1 ++ tr2) (new1 ++ new2).

Lemma encrypt_file_ok pr K w top rd n x es tbl tbl1 new : encrypt_file pr K w top (path_of rd n) n x es tbl = Ok (true, tbl1, new) ->
  exists d out, x = Reg d /\ new = [(n ++ B "c", out)] /\ (forall fs, lookup es (n ++ B "c") <> Some (Folder fs)) /\
    Trace pr K w tbl [{| s_dir := rd; s_name := n; s_data := d; s_out := out |}] tbl1.
Proof.
  unfold encrypt_file. intros H.
  destruct (fit _ (top ++ [SLASH] ++ path_of rd n)) as [f| |]; [|discriminate|discriminate]. cbn [bind] in H.
  destruct (fit _ (f ++ B "c")) as [g| |]; [|discriminate|discriminate]. cbn [bind] in H.
  destruct (w_open w f && w_open w g && _) eqn:O; [|discriminate]. apply andb_true_iff in O. destruct O as [_ O].
  destruct x as [d|fs|]; [|discriminate|discriminate]. destruct (w_encrypts w (path_of rd n)); [|discriminate].
  destruct (cr_encrypt _ _ _ _ _ _ _) as [[t1 o]| |] eqn:E; [|discriminate|discriminate]. cbn [bind] in H. destruct o as [out|]; [|discriminate].
  injection H as <- <-. exists d, out. split; [reflexivity|]. split; [reflexivity|]. split.
  - intros fs L. rewrite L in O. discriminate.
  - econstructor; [|constructor]. exact E.
Qed.

Lemma loop_names {w rd es} l l2 tr new : LoopOk w rd es l l2 tr new -> map fst l2 = map fst l.
Proof. induction 1 as [|n x x1 tr1 new1 r r2 tr2 new2 E L IH]; [reflexivity|]. cbn [map fst]. now rewrite IH. Qed.
Lemma loop_step {w rd es} l l2 tr new : LoopOk w rd es l l2 tr new -> forall s, In s tr ->
  exists n x x1 tr1 new1, In (n, x) l /\ In (n, x1) l2 /\ EntryOk w rd es n x x1 tr1 new1 /\ In s tr1 /\ incl new1 new.
Proof.
  induction 1 as [|n x x1 tr1 new1 r r2 tr2 new2 E L IH]; intros s I; [contradiction|]. apply in_app_or in I. destruct I as [I|I].
  - exists n, x, x1, tr1, new1. split; [now left|]. split; [now left|]. split; [exact E|]. split; [exact I|]. now apply incl_appl, incl_refl.
  - destruct (IH s I) as (m & y & y1 & tr3 & new3 & I1 & I2 & E3 & Is & Inc). exists m, y, y1, tr3, new3. split; [now right|]. split; [now right|].
    split; [exact E3|]. split; [exact Is|]. now apply incl_appr.
Qed.
Lemma loop_entry {w rd es} l l2 tr new : LoopOk w rd es l l2 tr new -> forall n x, In (n, x) l ->
  exists x1 tr1 new1, In (n, x1) l2 /\ EntryOk w rd es n x x1 tr1 new1 /\ incl tr1 tr.
Proof.
  induction 1 as [|n x x1 tr1 new1 r r2 tr2 new2 E L IH]; intros m y I; [contradiction|]. destruct I as [[= <- <-]|I].
  - exists x1, tr1, new1. split; [now left|]. split; [exact E|]. apply incl_appl, incl_refl.
  - destruct (IH m y I) as (y1 & tr3 & new3 & I1 & E3 & Inc). exists y1, tr3, new3. split; [now right|]. split; [exact E3|]. now apply incl_appr.
Qed.
Lemma loop_result {w rd es} l l2 tr new : LoopOk w rd es l l2 tr new -> forall n x1, In (n, x1) l2 ->
  exists x tr1 new1, In (n, x) l /\ EntryOk w rd es n x x1 tr1 new1 /\ incl tr1 tr.
Proof.
  induction 1 as [|n x x1 tr1 new1 r r2 tr2 new2 E L IH]; intros m y I; [contradiction|]. destruct I as [[= <- <-]|I].
  - exists x, tr1, new1. split; [now left|]. split; [exact E|]. apply incl_appl, incl_refl.
  - destruct (IH m y I) as (y1 & tr3 & new3 & I1 & E3 & Inc). exists y1, tr3, new3. split; [now right|]. split; [exact E3|]. now apply incl_appr.
Qed.
Lemma loop_new {w rd es} l l2 tr new : LoopOk w rd es l l2 tr new -> forall m out, In (m, out) new ->
  exists n d, m = n ++ B "c" /\ In (n, Reg d) l /\ caseeq n PACKAGE_MO = false /\ is_modelica n = true /\
    (forall fs, lookup es (n ++ B "c") <> Some (Folder fs)) /\ In {| s_dir := rd; s_name := n; s_data := d; s_out := out |} tr.
Proof.
  induction 1 as [|n x x1 tr1 new1 r r2 tr2 new2 E L IH]; intros m out I; [contradiction|]. apply in_app_or in I. destruct I as [I|I].
  - inversion E as [|? d o C M F|]; subst; try contradiction. destruct I as [[= <- <-]|[]]. exists n, d. split; [reflexivity|]. split; [now left|].
    split; [exact C|]. split; [exact M|]. split; [exact F|]. now left.
  - destruct (IH m out I) as (n' & d & -> & I' & C & M & F & It). exists n', d. split; [reflexivity|]. split; [now right|].
    split; [exact C|]. split; [exact M|]. split; [exact F|]. apply in_or_app. now right.
Qed.
Lemma loop_new_nodup {w rd es} l l2 tr new : LoopOk w rd es l l2 tr new -> NoDup (map fst l) -> NoDup (map fst new).
Proof.
  induction 1 as [|n x x1 tr1 new1 r r2 tr2 new2 E L IH]; intros ND; [constructor|]. cbn [map fst] in ND. inversion ND as [|? ? Nn ND']; subst.
  specialize (IH ND'). inversion E as [|? d o C M F|]; subst; try exact IH. cbn [app map fst]. constructor; [|exact IH].
  intros I. apply in_map_iff in I. destruct I as ([m out] & Em & I). cbn [fst] in Em. subst m.
  destruct (loop_new _ _ _ _ L _ _ I) as (n' & d' & En & I' & _). apply app_inv_tail in En. subst n'. apply Nn. exact (in_map fst r (n, Reg d') I').
Qed.

(** A step belongs to an entry of its name. *)
Lemma entry_step {w rd es} n x x1 tr1 new1 : EntryOk w rd es n x x1 tr1 new1 -> forall s, In s tr1 ->
  (s_dir s = rd /\ s_name s = n /\ caseeq n PACKAGE_MO = false) \/ exists q, s_dir s = rd ++ n :: q.
Proof.
  intros E s I. inversion E as [|? d o C M F|? fs ? ? C G]; subst; try contradiction.
  - destruct I as [<-|[]]. left. now repeat split.
  - right. destruct G as (G1 & _). destruct (G1 s I) as (dir & -> & _). exists dir. now rewrite <- app_assoc.
Qed.
Lemma loop_key {w rd es} l l2 tr new : LoopOk w rd es l l2 tr new -> forall s, In s tr -> exists n, In n (map fst l) /\
  ((s_dir s = rd /\ s_name s = n /\ caseeq n PACKAGE_MO = false) \/ exists q, s_dir s = rd ++ n :: q).
Proof.
  intros L s I. destruct (loop_step _ _ _ _ L s I) as (n & x & x1 & tr1 & new1 & Il & _ & E & Is & _). exists n. split; [exact (in_map fst l (n, x) Il)|].
  exact (entry_step _ _ _ _ _ E s Is).
Qed.
Lemma self_app {A} (l : list A) a q : l = l ++ a :: q -> False.
Proof. intros H. apply (f_equal (@length _)) in H. rewrite app_length in H. cbn [length] in H. lia. Qed.
Lemma loop_nodup {w rd es} l l2 tr new : LoopOk w rd es l l2 tr new -> NoDup (map fst l) -> NoDup (map s_key tr).
Proof.
  induction 1 as [|n x x1 tr1 new1 r r2 tr2 new2 E L IH]; intros ND; [constructor|]. cbn [map fst] in ND. inversion ND as [|? ? Nn ND']; subst.
  rewrite map_app. apply nodup_app; [|exact (IH ND')|].
  - inversion E as [|? d o C M F|? fs ? ? C G]; subst; [constructor|cbn [map]; constructor; [intros []|constructor]|now apply G].
  - intros k I1 I2. apply in_map_iff in I1. apply in_map_iff in I2. destruct I1 as (s1 & K1 & I1). destruct I2 as (s2 & K2 & I2).
    destruct (loop_key _ _ _ _ L s2 I2) as (m & Im & H2). pose proof (entry_step _ _ _ _ _ E s1 I1) as H1. rewrite <- K2 in K1. injection K1 as Kd Kn.
    destruct H1 as [(D1 & N1 & _)|(q1 & D1)]; destruct H2 as [(D2 & N2 & _)|(q2 & D2)]; rewrite D1, D2 in Kd.
    + apply Nn. congruence.
    + exact (self_app _ _ _ Kd).
    + symmetry in Kd. exact (self_app _ _ _ Kd).
    + apply app_inv_head in Kd. injection Kd as -> _. contradiction.
Qed.
Lemma loop_ordered {w rd es} l l2 tr new : LoopOk w rd es l l2 tr new -> NoDup (map fst l) -> Ordered tr.
Proof.
  induction 1 as [|n x x1 tr1 new1 r r2 tr2 new2 E L IH]; intros ND; [intros pre f post H; now destruct pre|].
  cbn [map fst] in ND. inversion ND as [|? ? Nn ND']; subst. apply ordered_app; [|exact (IH ND')|].
  - inversion E as [|? d o C M F|? fs ? ? C G]; subst.
    + intros pre f post Hp. now destruct pre.
    + intros [|a pre] f post Hp P g I; [contradiction|]. injection Hp as _ Hp. now destruct pre.
    + now apply G.
  - intros f g If P Ig [c A]. destruct (loop_key _ _ _ _ L f If) as (m & Im & [(D & N & C)|(q & D)]).
    + rewrite P in N. subst m. rewrite (eq_refl : caseeq PACKAGE_MO PACKAGE_MO = true) in C. discriminate.
    + rewrite D in A. destruct (entry_step _ _ _ _ _ E g Ig) as [(D' & _)|(q' & D')]; rewrite D', <- app_assoc in A; cbn [app] in A.
      * exact (self_app _ _ _ A).
      * apply app_inv_head in A. injection A as -> _. contradiction.
Qed.

Lemma filename_c n : FileName n -> FileName (n ++ B "c").
Proof.
  intros (N & S & Z & _). split; [now destruct n|]. split; [|split].
  - rewrite in_app_iff. intros [H|[H|[]]]; [contradiction|discriminate].
  - rewrite in_app_iff. intros [H|[H|[]]]; [contradiction|discriminate].
  - split; intros H; apply (f_equal (@rev _)) in H; rewrite rev_app_distr in H; discriminate.
Qed.

(** A directory with its package file [trp], [newp]. *)
Lemma good_folder w rd es es2 tr new trp newp :
  Proper (Folder es) -> LoopOk w rd es es es2 tr new ->
  (trp = [] /\ newp = [] /\ ((forall p, w_open w p = true) -> lookup es PACKAGE_MO = None) \/
   exists d out, lookup es PACKAGE_MO = Some (Reg d) /\ (forall fs, lookup es (PACKAGE_MO ++ B "c") <> Some (Folder fs)) /\
     trp = [{| s_dir := rd; s_name := PACKAGE_MO; s_data := d; s_out := out |}] /\ newp = [(PACKAGE_MO ++ B "c", out)]) ->
  Good w rd (Folder es) (Folder (set_files (newp ++ new) es2)) (trp ++ tr).
Proof.
  intros P L HP. destruct (proper_folder es P) as [ND Fe].
  assert (PM : caseeq PACKAGE_MO PACKAGE_MO = true) by reflexivity.
  (* all new files *)
  assert (New : forall m out, In (m, out) (newp ++ new) -> exists n d, m = n ++ B "c" /\ In (n, Reg d) es /\ is_modelica n = true /\
     (forall fs, lookup es (n ++ B "c") <> Some (Folder fs)) /\ In {| s_dir := rd; s_name := n; s_data := d; s_out := out |} (trp ++ tr)).
  { intros m out I. apply in_app_or in I. destruct I as [I|I].
    - destruct HP as [(-> & -> & _)|(d & o & Lk & F & -> & ->)]; [contradiction|]. destruct I as [[= <- <-]|[]]. exists PACKAGE_MO, d.
      split; [reflexivity|]. split; [now apply lookup_in|]. split; [reflexivity|]. split; [exact F|now left].
    - destruct (loop_new _ _ _ _ L m out I) as (n & d & -> & I' & C & M & F & It). exists n, d. split; [reflexivity|]. split; [exact I'|].
      split; [exact M|]. split; [exact F|]. apply in_or_app. now right. }
  assert (NewND : NoDup (map fst (newp ++ new))).
  { rewrite map_app. apply nodup_app.
    - destruct HP as [(-> & -> & _)|(d & o & Lk & F & -> & ->)]; [constructor|]. cbn [map]. constructor; [intros []|constructor].
    - exact (loop_new_nodup _ _ _ _ L ND).
    - intros m I1 I2. destruct HP as [(-> & -> & _)|(d & o & Lk & F & -> & ->)]; [contradiction|]. destruct I1 as [<-|[]].
      apply in_map_iff in I2. destruct I2 as ([m out] & Em & I2). cbn [fst] in Em. subst m.
      destruct (loop_new _ _ _ _ L _ _ I2) as (n & d' & En & _ & C & _). apply app_inv_tail in En. subst n. congruence. }
  (* folders are not overwritten *)
  assert (Dir : forall n fs, In (n, Folder fs) es -> ~ In n (map fst (newp ++ new))).
  { intros n fs I H. apply in_map_iff in H. destruct H as ([m out] & <- & H). cbn [fst] in I. destruct (New m out H) as (n' & d & -> & _ & _ & F & _).
    apply (F fs). now apply in_lookup. }
  assert (NP : forall n x1, In (n, x1) es2 -> FileName n /\ Proper x1).
  { intros n x1 I. destruct (loop_result _ _ _ _ L n x1 I) as (x & tr1 & new1 & I' & E & _). destruct (Fe n x I') as [Fn Px]. split; [exact Fn|].
    inversion E as [|? d o C M F|? fs ? ? C G]; subst; [exact Px|exact Px|apply G]. }
  assert (P2 : Proper (Folder es2)) by (constructor; [now rewrite (loop_names _ _ _ _ L)|exact NP]).
  repeat apply conj.
  - intros s I. apply in_app_or in I. destruct I as [I|I].
    + destruct HP as [(-> & _)|(d & o & Lk & F & -> & ->)]; [contradiction|]. destruct I as [<-|[]]. cbn [s_dir s_name s_data s_out].
      exists []. rewrite app_nil_r. cbn [app]. split; [reflexivity|]. split; [apply at_cons; exists (Reg d); split; [now apply lookup_in|constructor]|].
      split; [|split; [reflexivity|split; [reflexivity|constructor]]]. apply at_cons. exists (Reg o). split; [|constructor].
      apply set_files_new; [exact NewND|now left].
    + destruct (loop_step _ _ _ _ L s I) as (n & x & x1 & tr1 & new1 & Il & Il2 & E & Is & Inc).
      inversion E as [|? d o C M F|? fs ? ? C G]; subst; [contradiction| |].
      * destruct Is as [<-|[]]. cbn [s_dir s_name s_data s_out]. exists []. rewrite app_nil_r. cbn [app]. split; [reflexivity|].
        split; [apply at_cons; exists (Reg d); split; [exact Il|constructor]|]. split; [|split; [exact M|split; [congruence|constructor]]].
        apply at_cons. exists (Reg o). split; [|constructor]. apply set_files_new; [exact NewND|]. apply in_or_app. right. apply Inc. now left.
      * destruct G as (G1 & _). destruct (G1 s Is) as (dir & Ed & A & A' & M & Cp & Fd). exists (n :: dir). rewrite Ed, <- app_assoc.
        split; [reflexivity|]. cbn [app]. split; [apply at_cons; eauto|]. split; [|split; [exact M|split; [exact Cp|now constructor]]].
        apply at_cons. exists x1. split; [|exact A']. apply set_files_old; [now apply (Dir n fs)|exact Il2].
  - rewrite map_app. apply nodup_app; [|exact (loop_nodup _ _ _ _ L ND)|].
    + destruct HP as [(-> & _)|(d & o & Lk & F & -> & ->)]; [constructor|]. cbn [map]. constructor; [intros []|constructor].
    + intros k I1 I2. destruct HP as [(-> & _)|(d & o & Lk & F & -> & ->)]; [contradiction|]. destruct I1 as [<-|[]].
      apply in_map_iff in I2. destruct I2 as (s2 & K2 & I2). injection K2 as Kd Kn. cbn [s_dir s_name] in *.
      destruct (loop_key _ _ _ _ L s2 I2) as (m & Im & [(D & N & C)|(q & D)]).
      * rewrite Kn in N. subst m. congruence.
      * rewrite Kd in D. exact (self_app _ _ _ D).
  - apply ordered_app; [|exact (loop_ordered _ _ _ _ L ND)|].
    + destruct HP as [(-> & _)|(d & o & Lk & F & -> & ->)]; [intros pre f post H; now destruct pre|].
      intros [|a pre] f post H Pf g I; [contradiction|]. injection H as _ H. now destruct pre.
    + intros f g If Pf Ig [c A]. destruct HP as [(-> & _)|(d & o & Lk & F & -> & ->)]; [contradiction|]. destruct Ig as [<-|[]]. cbn [s_dir] in A.
      destruct (loop_key _ _ _ _ L f If) as (m & Im & [(D & N & C)|(q & D)]).
      * rewrite Pf in N. subst m. congruence.
      * rewrite D, <- app_assoc in A. cbn [app] in A. exact (self_app _ _ _ A).
  - intros p d A. apply at_folder_reg in A. destruct A as (n & q & x & -> & I & A). destruct (set_files_in _ _ _ _ I) as [I2|(d' & -> & In')].
    + destruct (loop_result _ _ _ _ L n x I2) as (x0 & tr1 & new1 & I' & E & Inc). inversion E as [|? d0 o C M F|? fs ? ? C G]; subst.
      * left. apply at_cons. eauto.
      * left. apply at_cons. eauto.
      * destruct G as (_ & _ & _ & G4 & _). destruct (G4 q d A) as [A'|(s & dir & Is & Ed & -> & ->)].
        -- left. apply at_cons. eauto.
        -- right. exists s, (n :: dir). split; [apply in_or_app; right; now apply Inc|]. split; [now rewrite Ed, <- app_assoc|]. now split.
    + apply at_reg in A. destruct A as [-> [= ->]]. destruct (New _ _ In') as (n' & d0 & -> & _ & _ & _ & It). right.
      exists {| s_dir := rd; s_name := n'; s_data := d0; s_out := d' |}, []. split; [exact It|]. cbn [s_dir s_name s_out]. rewrite app_nil_r. now split.
  - intros p n d A. destruct p as [|m p]; cbn [app] in A; apply at_cons in A; destruct A as (x & I & A).
    + apply at_nil in A. subst x. destruct (loop_entry _ _ _ _ L n _ I) as (x1 & tr1 & new1 & I1 & E & Inc).
      assert (x1 = Reg d) as -> by (now inversion E; subst).
      destruct (In_dec (list_eq_dec Ascii.ascii_dec) n (map fst (newp ++ new))) as [H|H].
      * right. apply in_map_iff in H. destruct H as ([m out] & <- & H). destruct (New _ _ H) as (n' & d0 & E' & _ & _ & _ & It). cbn [fst].
        exists {| s_dir := rd; s_name := n'; s_data := d0; s_out := out |}. split; [exact It|]. cbn [s_dir s_name]. rewrite app_nil_r. now split.
      * left. cbn [app]. apply at_cons. exists (Reg d). split; [|constructor]. now apply set_files_old.
    + destruct (loop_entry _ _ _ _ L m _ I) as (x1 & tr1 & new1 & I1 & E & Inc). destruct x as [e|fs|].
      * exfalso. apply at_reg in A. destruct A as [A _]. now destruct p.
      * assert (K : In (m, x1) (set_files (newp ++ new) es2)) by (apply set_files_old; [now apply (Dir m fs)|exact I1]).
        inversion E as [|? d0 o C M F|? fs0 ? ? C G]; subst.
        -- left. cbn [app]. apply at_cons. eauto.
        -- destruct G as (_ & _ & _ & _ & G5 & _). destruct (G5 p n d A) as [A'|(s & Is & Ed & En)].
           ++ left. cbn [app]. apply at_cons. eauto.
           ++ right. exists s. split; [apply in_or_app; right; now apply Inc|]. split; [now rewrite Ed, <- app_assoc|exact En].
      * exfalso. apply at_other in A. destruct A as [_ A]. discriminate.
  - intros WO dir n d A M Cp Fd. destruct dir as [|m dir]; cbn [app] in A; apply at_cons in A; destruct A as (x & I & A).
    + apply at_nil in A. subst x. destruct (caseeq n PACKAGE_MO) eqn:C.
      * specialize (Cp eq_refl). subst n. apply in_lookup in I; [|exact ND].
        destruct HP as [(-> & -> & HN)|(d0 & o & Lk & F & -> & ->)]; [rewrite (HN WO) in I; discriminate|].
        rewrite Lk in I. injection I as ->. eexists. split; [now left|]. cbn [s_dir s_name s_data]. rewrite app_nil_r. now repeat split.
      * destruct (loop_entry _ _ _ _ L n _ I) as (x1 & tr1 & new1 & I1 & E & Inc). inversion E as [? ? HS|? d0 o C' M' F|]; subst.
        -- exfalso. destruct HS as [HS|[(d' & _ & HS)|HS]]; [congruence|congruence|discriminate].
        -- eexists. split; [apply in_or_app; right; apply Inc; now left|]. cbn [s_dir s_name s_data]. rewrite app_nil_r. now repeat split.
    + inversion Fd as [|? ? Cm Fd']; subst. destruct (loop_entry _ _ _ _ L m _ I) as (x1 & tr1 & new1 & I1 & E & Inc). inversion E as [? ? HS|? d0 o C' M' F|? fs ? ? C G]; subst.
      * exfalso. destruct HS as [HS|[(d' & -> & HS)|HS]]; [congruence| |].
        -- apply at_reg in A. destruct A as [A _]. now destruct dir.
        -- subst x1. apply at_other in A. destruct A as [_ A]. discriminate.
      * exfalso. apply at_reg in A. destruct A as [A _]. now destruct dir.
      * destruct G as (_ & _ & _ & _ & _ & G6 & _). destruct (G6 WO dir n d A M Cp Fd') as (s & Is & Ed & En & Es).
        exists s. split; [apply in_or_app; right; now apply Inc|]. split; [now rewrite Ed, <- app_assoc|now split].
  - apply proper_set_files; [exact P2|]. apply Forall_forall. intros m I. apply in_map_iff in I. destruct I as ([m' out] & <- & I).
    destruct (New _ _ I) as (n & d & -> & I' & _). cbn [fst]. apply filename_c. now apply (Fe n (Reg d)).
Qed.

Lemma enc_trace pr K w top : forall t rd tbl tbl' t', Proper t -> encrypt_dir pr K w top (relstr rd) t tbl = Ok (true, tbl', t') ->
  exists l, Trace pr K w tbl l tbl' /\ Good w rd t t' l.
Proof.
  induction t as [e| |es IH] using tree_induction; intros rd tbl tbl' t' P H; [discriminate|discriminate|].
  rewrite encrypt_folder in H.
  destruct (fit _ (match relstr rd with Some r => _ | None => _ end)) as [full| |]; [|discriminate|discriminate]. cbn [bind] in H.
  destruct (fit _ (full ++ B "/package.mo")) as [pkg| |]; [|discriminate|discriminate]. cbn [bind] in H.
  rewrite rel_join_path in H. destruct (fit _ (path_of rd PACKAGE_MO)) as [prel| |] eqn:Fp; [|discriminate|discriminate]. cbn [bind] in H.
  apply fit_ok in Fp. destruct Fp as [-> _].
  match type of H with bind ?X _ = _ => destruct X as [[[ok1 tbl1] newp]| |] eqn:E1 end; [|discriminate|discriminate]. cbn [bind] in H.
  destruct ok1; [|discriminate]. cbn [andb] in H. destruct (w_opendir w Encrypting full); [|discriminate].
  assert (HP : exists trp, Trace pr K w tbl trp tbl1 /\ (trp = [] /\ newp = [] /\ ((forall p, w_open w p = true) -> lookup es PACKAGE_MO = None) \/
   exists d out, lookup es PACKAGE_MO = Some (Reg d) /\ (forall fs, lookup es (PACKAGE_MO ++ B "c") <> Some (Folder fs)) /\
     trp = [{| s_dir := rd; s_name := PACKAGE_MO; s_data := d; s_out := out |}] /\ newp = [(PACKAGE_MO ++ B "c", out)])).
  { destruct (lookup es PACKAGE_MO) as [x|] eqn:Lk.
    - destruct (w_open w pkg) eqn:O.
      + apply encrypt_file_ok in E1. destruct E1 as (d & out & -> & -> & F & T). eexists. split; [exact T|]. right. exists d, out. now repeat split.
      + injection E1 as <- <-. exists []. split; [constructor|]. left. split; [reflexivity|]. split; [reflexivity|]. intros WO. rewrite WO in O. discriminate.
    - injection E1 as <- <-. exists []. split; [constructor|]. left. now repeat split. }
  destruct HP as (trp & Tp & HP). clear E1.
  destruct (enc_list pr K w top (relstr rd) es es tbl1) as [[[[ok2 tbl2] es2] new2]| |] eqn:E2; [|discriminate|discriminate]. cbn [bind] in H.
  injection H as -> <- <-.
  destruct (proper_folder es P) as [_ Fe].
  assert (HL : exists tr, Trace pr K w tbl1 tr tbl2 /\ LoopOk w rd es es es2 tr new2).
  { enough (Gen : forall l, incl l es -> forall tbl1 tbl2 es2 new2, enc_list pr K w top (relstr rd) es l tbl1 = Ok (true, tbl2, es2, new2) ->
        exists tr, Trace pr K w tbl1 tr tbl2 /\ LoopOk w rd es l es2 tr new2) by exact (Gen es (incl_refl _) _ _ _ _ E2).
    clear E2 tbl1 tbl2 es2 new2 Tp HP. induction l as [|[n x] r IHr]; intros Inc tbl1 tbl2 es2 new2 E2.
    - injection E2 as <- <- <-. exists []. split; constructor.
    - rewrite enc_list_cons in E2. destruct (enc_one pr K w top (relstr rd) es n x tbl1) as [[[[ok t1] x1] new1]| |] eqn:E1; [|discriminate|discriminate].
      cbn [bind] in E2. destruct ok; [|discriminate].
      destruct (enc_list pr K w top (relstr rd) es r t1) as [[[[ok2 t2] r2] new3]| |] eqn:E3; [|discriminate|discriminate]. cbn [bind] in E2.
      injection E2 as -> <- <- <-.
      destruct (IHr (fun z I => Inc z (or_intror I)) _ _ _ _ E3) as (tr2 & T2 & L2).
      assert (H1 : exists tr1, Trace pr K w tbl1 tr1 t1 /\ EntryOk w rd es n x x1 tr1 new1).
      { unfold enc_one in E1. destruct (caseeq n PACKAGE_MO) eqn:C.
        - injection E1 as <- <- <-. exists []. split; [constructor|]. constructor. now left.
        - rewrite rel_join_path in E1. destruct (fit _ (path_of rd n)) as [p| |] eqn:Fp; [|discriminate|discriminate]. cbn [bind] in E1.
          apply fit_ok in Fp. destruct Fp as [-> _]. destruct x as [d|fs|].
          + destruct (is_modelica n) eqn:M.
            * destruct (encrypt_file pr K w top (path_of rd n) n (Reg d) es tbl1) as [[[ok t1'] new']| |] eqn:Ef; [|discriminate|discriminate]. cbn [bind] in E1.
              injection E1 as -> <- <- <-. apply encrypt_file_ok in Ef. destruct Ef as (d' & out & [= <-] & -> & F & T). eexists. split; [exact T|]. now constructor.
            * injection E1 as <- <- <-. exists []. split; [constructor|]. constructor. right. left. eauto.
          + destruct (encrypt_dir pr K w top (Some (path_of rd n)) (Folder fs) tbl1) as [[[ok t1'] x1']| |] eqn:Ed; [|discriminate|discriminate]. cbn [bind] in E1.
            injection E1 as -> <- <- <-. rewrite <- relstr_snoc in Ed.
            destruct (IH n (Folder fs) (Inc _ (or_introl eq_refl)) _ _ _ _ (proj2 (Fe n (Folder fs) (Inc _ (or_introl eq_refl)))) Ed) as (l & T & G).
            exists l. split; [exact T|]. now constructor.
          + injection E1 as <- <- <-. exists []. split; [constructor|]. constructor. right. now right. }
      destruct H1 as (tr1 & T1 & En). exists (tr1 ++ tr2). split; [exact (trace_app _ _ _ _ _ _ _ _ T1 T2)|]. now constructor. }
  destruct HL as (tr & T & L). exists (trp ++ tr). split; [exact (trace_app _ _ _ _ _ _ _ _ Tp T)|]. now apply good_folder.
Qed.

(** ** What is written *)

Lemma mask_key_lengths {pr : primitives} rnd : length rnd = p_len pr -> forall fuel t rel key flag t1 key1, TableLen pr t ->
  mask_key pr fuel t rel key rnd = Ok (flag, t1, key1) -> TableLen pr t1 /\ length key1 = length key.
Proof.
  intros Lr. induction fuel as [|f IH]; intros t rel key flag t1 key1 T H; [discriminate|]. rewrite mask_key_S in H.
  destruct (split_path rel) as [dir base]. set (path := match dir with Some d => d | None => [SLASH] end) in *.
  assert (Lz : length (zeros pr) = p_len pr) by apply repeat_length.
  destruct (caseeq base PACKAGE_MO).
  - destruct (find_mask t path) as [m|]; [injection H; intros <- <- _; now split|].
    destruct (if at_root path then _ else _) as [[[ret t2] k2]| |] eqn:E; [|discriminate|discriminate]. cbn [bind] in H.
    assert (X : TableLen pr t2 /\ length k2 = length key). { destruct (at_root path); [injection E; intros <- <- _; now split|]. exact (IH _ _ _ _ _ _ T E). }
    destruct X as [T2 L2]. destruct (ret =? 0)%Z; injection H; intros <- <- _; [|now split]. split; [|exact L2]. now apply tablelen_add.
  - destruct (find_mask t path) as [m|] eqn:F.
    + injection H; intros <- <- _. split; [exact T|]. apply xor_length.
    + destruct (if at_root path then _ else _) as [[[ret t2] m]| |] eqn:E; [|discriminate|discriminate]. cbn [bind] in H.
      assert (X : TableLen pr t2 /\ length m = p_len pr). { rewrite <- Lz. destruct (at_root path); [injection E; intros <- <- _; now split|]. exact (IH _ _ _ _ _ _ T E). }
      destruct X as [T2 L2]. destruct (ret =? 0)%Z; injection H; intros <- <- _; [|now split]. split; [now apply tablelen_add|]. apply xor_length.
Qed.
Lemma cr_encrypt_concealed pr K t rel iv rnd file t1 out : GoodPrimitives pr -> length K = 32 -> TableLen pr t -> length iv = 16 -> p_len pr <= length rnd ->
  cr_encrypt pr K t rel iv (firstn (p_len pr) rnd) file = Ok (t1, Some out) -> TableLen pr t1 /\ Concealed pr iv rnd file out.
Proof.
  intros G LK T Li Lr0 H. assert (Lr : length (firstn (p_len pr) rnd) = p_len pr) by (rewrite firstn_length; lia).
  unfold cr_encrypt in H. destruct (mask_key pr _ t rel K _) as [[[flag t2] key]| |] eqn:E; [|discriminate|discriminate]. cbn [bind] in H.
  destruct (mask_key_lengths _ Lr _ _ _ _ _ _ _ T E) as [T2 Lk]. rewrite LK in Lk. destruct (flag <? 0)%Z; [discriminate|].
  destruct (encrypt_with_sealed pr key iv file (if (flag =? 0)%Z then None else Some (firstn (p_len pr) rnd)) G Lk Li) as (o & Eo & S).
  { intros m. destruct (flag =? 0)%Z; [discriminate|]. now intros [= <-]. }
  rewrite Eo in H. cbn [bind] in H. injection H as <- <-. split; [exact T2|]. exists key. eexists. split; [exact Lk|]. split; [|exact S].
  destruct (flag =? 0)%Z; [left; apply app_nil_r|now right].
Qed.
Lemma trace_concealed pr K w : GoodPrimitives pr -> length K = 32 -> (forall r, length (w_iv w r) = 16 /\ length (w_mask w r) = 32) ->
  forall t l t', Trace pr K w t l t' -> TableLen pr t -> forall s, In s l -> Concealed pr (w_iv w (s_rel s)) (w_mask w (s_rel s)) (s_data s) (s_out s).
Proof.
  intros G LK R t l t' T. induction T as [t|t s t1 l t2 E _ IH]; intros TL s' I; [contradiction|]. destruct (R (s_rel s)) as [Ri Rm].
  destruct (cr_encrypt_concealed _ _ _ _ _ (w_mask w (s_rel s)) _ _ _ G LK TL Ri (eq_ind_r (fun n => p_len pr <= n) (proj2 (proj2 G)) Rm) E) as [T1 C]. destruct I as [<-|I]; [exact C|now apply IH].
Qed.

(** The run of the encryption of the files of a library. *)
Definition entry_of (pr : primitives) (w : world) (s : estep) : entry :=
  {| n_dir := s_dir s; n_name := s_name s; n_data := s_data s; n_iv := w_iv w (s_rel s); n_mask := firstn (p_len pr) (w_mask w (s_rel s)) |}.
Lemma trace_encrypt_all pr K w t l t' : Trace pr K w t l t' -> encrypt_all pr K t (map source_of (map (entry_of pr w) l)) = Ok (Some (map s_out l)).
Proof.
  induction 1 as [t|t s t1 l t2 E _ IH]; [reflexivity|]. cbn [map encrypt_all]. cbn [source_of f_rel f_iv f_mask f_data entry_of n_dir n_name n_data n_iv n_mask].
  fold (s_rel s). rewrite E. cbn [bind]. rewrite IH. reflexivity.
Qed.
