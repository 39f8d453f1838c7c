(* IPsec policy and association databases: src/ofp_ipsec_spd.c,
   src/ofp_ipsec_sad.c, and the control and look-up functions of src/ofp_ipsec.c
   and include/ofpi_ipsec.h. Lists are linked through the records' own fields, so
   that recycled and dangling links show. Every function that runs under one lock
   is one step; the processing lock (a big-reader lock, C28) is kept as "this
   thread holds it for reading", and taking it again while held never returns.
   ODP's answers are arguments. Left out: queues, capability checks and shared
   memory of start-up, crypto parameters (one number stands for them), the packet
   transformation itself. *)
From Verif Require Import Base.

(* include/api/ofp_ipsec.h:468-494: IPv4 members of the unions; addresses as the
   32-bit numbers a little-endian host loads from network order *)
Record sel := mkSel { s_type : Z; s_sf : Z; s_sl : Z; s_df : Z; s_dl : Z;
                      s_p1 : Z; s_p2 : Z; s_p3 : Z; s_p4 : Z; s_proto : Z }.
Definition SEL_IPV4 := 0.                                   (* api/ofp_ipsec.h:415-418 *)
Definition DIR_IN := 0.                  (* ODP_IPSEC_DIR_INBOUND, api/ofp_ipsec.h:31-36 *)
Inductive action := DISCARD | BYPASS | PROTECT.             (* api/ofp_ipsec.h:403-410 *)
(* api/ofp_ipsec.h:499-514 *)
Record spar := mkSpar { p_prio : Z; p_act : action; p_sa : option nat; p_dir : Z;
                        p_sel : sel; p_vrf : Z; p_id : Z }.
(* ofp_ipsec_spd.c:20-27 *)
Record spn := mkSp { n_par : spar; n_nl : option nat; n_sa : option nat; n_ref : Z;
                     n_destr : bool; n_next : option nat }.
(* api/ofp_ipsec.h:242-266; q_rest stands for the fields this code only copies *)
Record sapar := mkSapar { q_dir : Z; q_mode : Z; q_tun : Z; q_udp : bool; q_flabel : bool;
                          q_spi : Z; q_vrf : Z; q_id : Z; q_rest : Z }.
Definition MODE_TUNNEL := 0. Definition TUN_IPV4 := 0.      (* api/ofp_ipsec.h:51-56,149-154 *)
(* ofp_ipsec_sad.c:26-35, without odp_sa *)
Record san := mkSa { a_par : sapar; a_dis : bool; a_selset : bool; a_sel : sel; a_ref : Z;
                     a_destr : bool; a_next : option nat }.
(* ofp_ipsec_spd.c:29-35, ofp_ipsec_sad.c:18-24, ofpi_ipsec.h:23-31 *)
Record db := mkDb { sph : nat -> spn; spl : option nat; outl : option nat; inl : option nat; spf : option nat;
                    sah : nat -> san; sal : option nat; saf : option nat; active : bool; rheld : bool }.

Definition iupd {A} (f : nat -> A) (i : nat) (x : A) : nat -> A := fun j => if Nat.eqb j i then x else f j.
Definition w_sp d i n := mkDb (iupd (sph d) i n) (spl d) (outl d) (inl d) (spf d) (sah d) (sal d) (saf d) (active d) (rheld d).
Definition w_spl d x := mkDb (sph d) x (outl d) (inl d) (spf d) (sah d) (sal d) (saf d) (active d) (rheld d).
Definition w_outl d x := mkDb (sph d) (spl d) x (inl d) (spf d) (sah d) (sal d) (saf d) (active d) (rheld d).
Definition w_inl d x := mkDb (sph d) (spl d) (outl d) x (spf d) (sah d) (sal d) (saf d) (active d) (rheld d).
Definition w_spf d x := mkDb (sph d) (spl d) (outl d) (inl d) x (sah d) (sal d) (saf d) (active d) (rheld d).
Definition w_sa d i n := mkDb (sph d) (spl d) (outl d) (inl d) (spf d) (iupd (sah d) i n) (sal d) (saf d) (active d) (rheld d).
Definition w_sal d x := mkDb (sph d) (spl d) (outl d) (inl d) (spf d) (sah d) x (saf d) (active d) (rheld d).
Definition w_saf d x := mkDb (sph d) (spl d) (outl d) (inl d) (spf d) (sah d) (sal d) x (active d) (rheld d).
Definition w_act d x := mkDb (sph d) (spl d) (outl d) (inl d) (spf d) (sah d) (sal d) (saf d) x (rheld d).
Definition w_held d x := mkDb (sph d) (spl d) (outl d) (inl d) (spf d) (sah d) (sal d) (saf d) (active d) x.
(* single fields of a policy record *)
Definition f_nl n x := mkSp (n_par n) x (n_sa n) (n_ref n) (n_destr n) (n_next n).
Definition f_bsa n x := mkSp (n_par n) (n_nl n) x (n_ref n) (n_destr n) (n_next n).
Definition f_ref n x := mkSp (n_par n) (n_nl n) (n_sa n) x (n_destr n) (n_next n).
Definition f_destr n x := mkSp (n_par n) (n_nl n) (n_sa n) (n_ref n) x (n_next n).
Definition f_next n x := mkSp (n_par n) (n_nl n) (n_sa n) (n_ref n) (n_destr n) x.
(* single fields of an association record *)
Definition g_dis n x := mkSa (a_par n) x (a_selset n) (a_sel n) (a_ref n) (a_destr n) (a_next n).
Definition g_sel n x := mkSa (a_par n) (a_dis n) true x (a_ref n) (a_destr n) (a_next n).
Definition g_ref n x := mkSa (a_par n) (a_dis n) (a_selset n) (a_sel n) x (a_destr n) (a_next n).
Definition g_destr n x := mkSa (a_par n) (a_dis n) (a_selset n) (a_sel n) (a_ref n) x (a_next n).
Definition g_next n x := mkSa (a_par n) (a_dis n) (a_selset n) (a_sel n) (a_ref n) (a_destr n) x.

(* odp_be_to_cpu_32 and odp_cpu_to_be_32 on a little-endian host *)
Definition swap32 (x : Z) : Z :=
  (x mod 256) * 16777216 + (x / 256 mod 256) * 65536 + (x / 65536 mod 256) * 256 + x / 16777216 mod 256.

(* ofp_ipsec_spd.c:49-59 *)
Definition sp_alloc (d : db) : db * option nat :=
  match spf d with
  | None => (d, None)
  | Some i => (w_sp (w_spf d (n_next (sph d i))) i (f_ref (sph d i) 1), Some i)
  end.
(* ofp_ipsec_spd.c:61-65 *)
Definition sp_free (d : db) (i : nat) : db := w_spf (w_sp d i (f_next (sph d i) (spf d))) (Some i).
(* ofp_ipsec_spd.c:67-71 *)
Definition sp_ref (d : db) (o : option nat) : db :=
  match o with None => d | Some i => w_sp d i (f_ref (sph d i) (u32 (n_ref (sph d i) + 1))) end.
(* ofp_ipsec_spd.c:73-77 *)
Definition sp_unref (d : db) (o : option nat) : db :=
  match o with
  | None => d
  | Some i =>
    let d := w_sp d i (f_ref (sph d i) (u32 (n_ref (sph d i) - 1))) in
    if n_ref (sph d i) =? 0 then sp_free d i else d
  end.
(* ofp_ipsec_spd.c:166-177; fuel bounds the walk *)
Fixpoint sp_find (fuel : nat) (h : nat -> spn) (id : Z) (o : option nat) : outcome (option nat) :=
  match fuel with
  | O => Diverge
  | S f =>
    match o with
    | None => Ret None
    | Some i => if p_id (n_par (h i)) =? id then Ret (Some i) else sp_find f h id (n_next (h i))
    end
  end.
(* ofp_ipsec_spd.c:179-188 *)
Definition sp_find_by_id (fuel : nat) (d : db) (id : Z) : outcome (db * option nat) :=
  obind (sp_find fuel (sph d) id (spl d)) (fun o => Ret (sp_ref d o, o)).
(* ofp_ipsec_spd.c:190-199 *)
Definition sp_first (d : db) : db * option nat := (sp_ref d (spl d), spl d).
(* ofp_ipsec_spd.c:201-211 *)
Definition sp_next (d : db) (i : nat) : db * option nat :=
  let nx := n_next (sph d i) in (sp_unref (sp_ref d nx) (Some i), nx).

Definition sel_ntohl (s : sel) : sel :=
  mkSel (s_type s) (swap32 (s_sf s)) (swap32 (s_sl s)) (swap32 (s_df s)) (swap32 (s_dl s))
        (s_p1 s) (s_p2 s) (s_p3 s) (s_p4 s) (s_proto s).
Definition par_ntohl (p : spar) : spar :=
  mkSpar (p_prio p) (p_act p) (p_sa p) (p_dir p) (sel_ntohl (p_sel p)) (p_vrf p) (p_id p).
(* ofp_ipsec_spd.c:213-230: destroyed?, parameters *)
Definition sp_get_info (d : db) (i : nat) : bool * spar := (n_destr (sph d i), par_ntohl (n_par (sph d i))).

(* ofp_ipsec_spd.c:235-245: the walk; result: record after which the new one goes
   (None: at the head) and the record that follows it *)
Fixpoint sp_place (fuel : nat) (h : nat -> spn) (prio : Z) (prev cur : option nat) : outcome (option nat * option nat) :=
  match fuel with
  | O => Diverge
  | S f =>
    match cur with
    | None => Ret (prev, None)
    | Some i => if p_prio (n_par (h i)) >=? prio then Ret (prev, Some i) else sp_place f h prio (Some i) (n_nl (h i))
    end
  end.
(* ofp_ipsec_spd.c:384-390 and 243-244 *)
Definition w_lk (d : db) (dir : Z) (x : option nat) : db := if dir =? DIR_IN then w_inl d x else w_outl d x.
Definition lk (d : db) (dir : Z) : option nat := if dir =? DIR_IN then inl d else outl d.
Definition lookup_add_sp (fuel : nat) (d : db) (i : nat) : outcome db :=
  let dir := p_dir (n_par (sph d i)) in
  obind (sp_place fuel (sph d) (p_prio (n_par (sph d i))) None (lk d dir)) (fun '(prev, cur) =>
  let d := w_sp d i (f_nl (sph d i) cur) in
  Ret (match prev with
       | None => w_lk d dir (Some i)
       | Some j => w_sp d j (f_nl (sph d j) (Some i))
       end)).

(* ofp_ipsec_spd.c:252-311 *)
Definition sp_add (fuel : nat) (d : db) (p : spar) : outcome (db * option nat) :=
  let s := p_sel p in
  if negb (s_p1 s =? 0) || negb (s_p2 s =? 0) || negb (s_p3 s =? 0) || negb (s_p4 s =? 0) then Ret (d, None) else
  if negb (s_type s =? SEL_IPV4) then Ret (d, None) else
  obind (sp_find fuel (sph d) (p_id p) (spl d)) (fun o =>
  match o with
  | Some _ => Ret (d, None)
  | None =>
    match p_sa p with
    | Some _ => Ret (d, None)
    | None =>
      match sp_alloc d with
      | (_, None) => Ret (d, None)
      | (d, Some i) =>
        let n := sph d i in
        let d := w_sp d i (mkSp (par_ntohl p) (n_nl n) None (n_ref n) false (spl d)) in
        let d := w_spl d (Some i) in
        Ret (sp_ref d (Some i), Some i)
      end
    end
  end).

(* ofp_ipsec_spd.c:313-337: unlink from the list of policies; result: rc = 0 *)
Fixpoint sp_pred (fuel : nat) (nx : nat -> option nat) (i : nat) (prev cur : option nat) : outcome (option (option nat)) :=
  match fuel with
  | O => Diverge
  | S f =>
    match cur with
    | None => Ret None
    | Some j => if Nat.eqb j i then Ret (Some prev) else sp_pred f nx i (Some j) (nx j)
    end
  end.
Definition sp_del (fuel : nat) (d : db) (i : nat) : outcome (db * bool) :=
  obind (sp_pred fuel (fun j => n_next (sph d j)) i None (spl d)) (fun r =>
  match r with
  | None => Ret (d, false)
  | Some prev =>
    let d := match prev with
             | None => w_spl d (n_next (sph d i))
             | Some j => w_sp d j (f_next (sph d j) (n_next (sph d i)))
             end in
    let d := w_sp d i (f_destr (sph d i) true) in
    Ret (sp_unref d (Some i), true)
  end).

(* ofp_ipsec_spd.c:401-404: the walk of lookup_del_sp; it ends at the record whose
   link points to i, or at the end of the list. "link == NULL" is never true. *)
Fixpoint lk_pred (fuel : nat) (h : nat -> spn) (i : nat) (prev cur : option nat) : outcome (option nat) :=
  match fuel with
  | O => Diverge
  | S f =>
    match cur with
    | None => Ret prev
    | Some j => if Nat.eqb j i then Ret prev else lk_pred f h i (Some j) (n_nl (h j))
    end
  end.
(* ofp_ipsec_spd.c:392-410; result: both lists empty *)
Definition lookup_del_sp (fuel : nat) (d : db) (i : nat) : outcome (db * bool) :=
  let dir := p_dir (n_par (sph d i)) in
  obind (lk_pred fuel (sph d) i None (lk d dir)) (fun prev =>
  let d := match prev with
           | None => w_lk d dir (n_nl (sph d i))
           | Some j => w_sp d j (f_nl (sph d j) (n_nl (sph d i)))
           end in
  Ret (d, match inl d, outl d with None, None => true | _, _ => false end)).

(* ofp_ipsec_spd.c:349-366; l3: the contiguous bytes from the IP header on *)
Record selv := mkV { v_src : Z; v_dst : Z; v_proto : Z }.
Definition byte (l : list Z) (i : nat) : Z := nth i l 0.
Definition be32 (l : list Z) (i : nat) : Z :=
  byte l i * 16777216 + byte l (i + 1) * 65536 + byte l (i + 2) * 256 + byte l (i + 3).
Definition sel_values (l3 : list Z) : selv :=
  if Nat.ltb (length l3) 20 then mkV 0 0 0 else mkV (be32 l3 12) (be32 l3 16) (byte l3 9).
(* ofp_ipsec_spd.c:368-382 *)
Definition sel_match (p : sel) (v : selv) : bool :=
  (s_type p =? SEL_IPV4) &&
  negb ((v_src v <? s_sf p) || (v_src v >? s_sl p)) &&
  negb ((v_dst v <? s_df p) || (v_dst v >? s_dl p)) &&
  negb (negb (s_proto p =? 0) && negb (v_proto v =? s_proto p)).
(* ofp_ipsec_spd.c:465-499: the ICMP header is taken at ip + ip_hl (bytes) *)
Definition icmp_match (l3 : list Z) (p : sel) : outcome bool :=
  if Nat.ltb (length l3) 20 then Ret false else
  if negb (byte l3 9 =? 1) then Ret false else
  let hl := byte l3 0 mod 16 in
  if Z.of_nat (length l3) <? hl * 4 + 8 + 20 then Ret false else
  let ic := Z.to_nat hl in
  let t := byte l3 ic in
  if negb ((t =? 3) || (t =? 11) || (t =? 12) || (t =? 4)) then Ret false else
  let q := (ic + 8)%nat in
  Ret (sel_match p (mkV (be32 l3 (q + 16)) (be32 l3 (q + 12)) (byte l3 (q + 9)))).
(* ofp_ipsec_spd.c:501-511 *)
Definition selector_match (l3 : list Z) (p : sel) : outcome bool :=
  if sel_match p (sel_values l3) then Ret true else icmp_match l3 p.

(* ofp_ipsec_spd.c:412-452: the walk, then the answer *)
Fixpoint sp_walk (fuel : nat) (h : nat -> spn) (vrf : Z) (v : selv) (o : option nat) : outcome (option nat) :=
  match fuel with
  | O => Diverge
  | S f =>
    match o with
    | None => Ret None
    | Some i => if (p_vrf (n_par (h i)) =? vrf) && sel_match (p_sel (n_par (h i))) v then Ret (Some i)
                else sp_walk f h vrf v (n_nl (h i))
    end
  end.
(* ofp_ipsec_sad.c:480-483 *)
Definition sa_disabled (d : db) (o : option nat) : bool := match o with None => true | Some i => a_dis (sah d i) end.
Definition sp_lookup (fuel : nat) (d : db) (dir vrf : Z) (l3 : list Z) : outcome (action * option nat) :=
  obind (sp_walk fuel (sph d) vrf (sel_values l3) (lk d dir)) (fun o =>
  Ret (match o with
       | None => (BYPASS, None)
       | Some i => (p_act (n_par (sph d i)), if sa_disabled d (n_sa (sph d i)) then None else n_sa (sph d i))
       end)).

(* ofp_ipsec_sad.c:56-66 *)
Definition sa_alloc (d : db) : db * option nat :=
  match saf d with
  | None => (d, None)
  | Some i => (w_sa (w_saf d (a_next (sah d i))) i (g_ref (sah d i) 1), Some i)
  end.
(* ofp_ipsec_sad.c:68-72 *)
Definition sa_free (d : db) (i : nat) : db := w_saf (w_sa d i (g_next (sah d i) (saf d))) (Some i).
(* ofp_ipsec_sad.c:74-78 *)
Definition sa_ref (d : db) (o : option nat) : db :=
  match o with None => d | Some i => w_sa d i (g_ref (sah d i) (u32 (a_ref (sah d i) + 1))) end.
(* ofp_ipsec_sad.c:80-84 *)
Definition sa_unref (d : db) (o : option nat) : db :=
  match o with
  | None => d
  | Some i =>
    let d := w_sa d i (g_ref (sah d i) (u32 (a_ref (sah d i) - 1))) in
    if a_ref (sah d i) =? 0 then sa_free d i else d
  end.
(* ofp_ipsec_sad.c:446-457 and 432-444 *)
Fixpoint sa_find (fuel : nat) (h : nat -> san) (p : sapar -> bool) (o : option nat) : outcome (option nat) :=
  match fuel with
  | O => Diverge
  | S f =>
    match o with
    | None => Ret None
    | Some i => if p (a_par (h i)) then Ret (Some i) else sa_find f h p (a_next (h i))
    end
  end.
Definition by_id (id : Z) (q : sapar) : bool := q_id q =? id.
Definition in_spi (spi : Z) (q : sapar) : bool := (q_dir q =? DIR_IN) && (q_spi q =? spi).

(* ofp_ipsec_sad.c:238-278; odp: odp_ipsec_sa_create gives a valid SA. Result: rc = 0 *)
Definition sa_init (fuel : nat) (d : db) (i : nat) (q : sapar) (odp : bool) : outcome (db * bool) :=
  if q_udp q || q_flabel q || ((q_mode q =? MODE_TUNNEL) && negb (q_tun q =? TUN_IPV4)) then Ret (d, false) else
  obind (sa_find fuel (sah d) (by_id (q_id q)) (sal d)) (fun o =>
  match o with
  | Some _ => Ret (d, false)
  | None =>
    obind (if q_dir q =? DIR_IN then sa_find fuel (sah d) (in_spi (q_spi q)) (sal d) else Ret None) (fun o =>
    match o with
    | Some _ => Ret (d, false)
    | None =>
      let n := sah d i in
      let d := w_sa d i (mkSa q false false (a_sel n) (a_ref n) false (a_next n)) in
      if negb odp then Ret (d, false) else
      let d := w_sa d i (g_next (sah d i) (sal d)) in
      Ret (w_sal d (Some i), true)
    end)
  end).
(* ofp_ipsec_sad.c:285-308 *)
Definition sa_create (fuel : nat) (d : db) (q : sapar) (odp : bool) : outcome (db * option nat) :=
  match sa_alloc d with
  | (_, None) => Ret (d, None)
  | (d, Some i) =>
    obind (sa_init fuel d i q odp) (fun '(d, ok) =>
    if ok then Ret (sa_ref d (Some i), Some i) else Ret (sa_unref d (Some i), None))
  end.
(* ofp_ipsec_sad.c:310-338; odp: odp_ipsec_sa_disable succeeds *)
Definition sa_disable (d : db) (i : nat) (odp : bool) : db * bool :=
  if a_dis (sah d i) then (d, false) else
  let d := w_sa d i (g_dis (sah d i) true) in
  if q_dir (a_par (sah d i)) =? DIR_IN then (d, odp) else (d, true).
(* ofp_ipsec_sad.c:340-354 *)
Definition sa_disable_finish (d : db) (i : nat) (odp : bool) : bool :=
  if q_dir (a_par (sah d i)) =? DIR_IN then true else odp.
(* ofp_ipsec_sad.c:356-394; odp: odp_ipsec_sa_destroy succeeds *)
Definition sa_destroy_finish (fuel : nat) (d : db) (i : nat) (odp : bool) : outcome (db * bool) :=
  obind (sp_pred fuel (fun j => a_next (sah d j)) i None (sal d)) (fun r =>
  match r with
  | None => Ret (d, false)
  | Some prev =>
    let d := match prev with
             | None => w_sal d (a_next (sah d i))
             | Some j => w_sa d j (g_next (sah d j) (a_next (sah d i)))
             end in
    if negb odp then Ret (d, false) else
    let d := w_sa d i (g_destr (sah d i) true) in
    Ret (sa_unref d (Some i), true)
  end).
(* ofp_ipsec_sad.c:396-405 *)
Definition sa_first (d : db) : db * option nat := (sa_ref d (sal d), sal d).
(* ofp_ipsec_sad.c:407-417 *)
Definition sa_next (d : db) (i : nat) : db * option nat :=
  let nx := a_next (sah d i) in (sa_unref (sa_ref d nx) (Some i), nx).
(* ofp_ipsec_sad.c:419-430 *)
Inductive sastat := ACTIVE | DISABLED | DESTROYED.
Definition sa_get_info (d : db) (i : nat) : sastat * sapar :=
  (if a_destr (sah d i) then DESTROYED else if a_dis (sah d i) then DISABLED else ACTIVE, a_par (sah d i)).
(* ofp_ipsec_sad.c:459-468 *)
Definition sa_find_by_id (fuel : nat) (d : db) (id : Z) : outcome (db * option nat) :=
  obind (sa_find fuel (sah d) (by_id id) (sal d)) (fun o => Ret (sa_ref d o, o)).
(* ofp_ipsec_sad.c:485-498 *)
Definition sa_set_selectors (d : db) (i : nat) (s : sel) : db * bool :=
  if a_selset (sah d i) then (d, false) else (w_sa d i (g_sel (sah d i) s), true).

(* ofp_ipsec.c:617-638: ofp_ipsec_sp_create after sp_add, under the processing lock *)
Definition sp_create2 (fuel : nat) (d : db) (i : nat) : outcome db :=
  if rheld d then Diverge else
  let d := w_sp d i (f_bsa (sph d i) None) in
  obind (lookup_add_sp fuel d i) (fun d => Ret (w_act d true)).
Definition sp_create (fuel : nat) (d : db) (p : spar) : outcome (db * option nat) :=
  obind (sp_add fuel d p) (fun '(d, o) =>
  match o with
  | None => Ret (d, None)
  | Some i => obind (sp_create2 fuel d i) (fun d => Ret (d, Some i))
  end).
(* ofp_ipsec.c:640-674; result: rc = 0 *)
Definition sp_destroy (fuel : nat) (d : db) (i : nat) : outcome (db * bool) :=
  if rheld d then Diverge else
  let sa := n_sa (sph d i) in
  let d := w_sp d i (f_bsa (sph d i) None) in
  obind (lookup_del_sp fuel d i) (fun '(d, empty) =>
  let d := if empty then w_act d false else d in
  let d := sa_unref d sa in
  sp_del fuel d i).
(* ofp_ipsec.c:676-690; o is the handle the loop holds; check: check_vrf *)
Fixpoint sp_flush_loop (fuel fuel2 : nat) (d : db) (check : bool) (vrf : Z) (o : option nat) (ret : bool) : outcome (db * bool) :=
  match fuel2 with
  | O => Diverge
  | S f =>
    match o with
    | None => Ret (d, ret)
    | Some i =>
      obind (if negb check || (p_vrf (n_par (sph d i)) =? vrf) then sp_destroy fuel d i else Ret (d, true)) (fun '(d, ok) =>
      let '(d, nx) := sp_next d i in sp_flush_loop fuel f d check vrf nx (ret && ok))
    end
  end.
Definition sp_flush (fuel : nat) (d : db) (check : bool) (vrf : Z) : outcome (db * bool) :=
  let '(d, o) := sp_first d in sp_flush_loop fuel fuel d check vrf o true.
(* ofp_ipsec.c:697-725 *)
Definition sp_bind (d : db) (i j : nat) : outcome (db * bool) :=
  let p := n_par (sph d i) in let q := a_par (sah d j) in
  if negb (p_dir p =? q_dir q) then Ret (d, false) else
  if negb (p_vrf p =? q_vrf q) then Ret (d, false) else
  if p_dir p =? DIR_IN then Ret (sa_set_selectors d j (p_sel p)) else
  if rheld d then Diverge else
  let old := n_sa (sph d i) in
  let d := w_sp d i (f_bsa (sph d i) (Some j)) in
  Ret (sa_ref (sa_unref d old) (Some j), true).

(* ofp_ipsec.c:750-780; sync: the operation mode of the SA's direction is SYNC;
   o1: odp_ipsec_sa_disable succeeds, o2: odp_ipsec_sa_destroy succeeds *)
Definition sa_destroy (fuel : nat) (d : db) (i : nat) (sync o1 o2 : bool) : outcome (db * bool) :=
  let '(d, ok) := sa_disable d i o1 in
  if negb ok then Ret (d, false) else
  if rheld d then Diverge else
  if negb (sa_disable_finish d i o1) then Ret (d, false) else
  if sync then sa_destroy_finish fuel d i o2 else Ret (d, true).
(* ofp_ipsec.c:782-796; the ODP answers of the calls in turn: all o1, all o2 *)
Fixpoint sa_flush_loop (fuel fuel2 : nat) (d : db) (check : bool) (vrf : Z) (sync : Z -> bool) (o1 o2 : bool)
    (o : option nat) (ret : bool) : outcome (db * bool) :=
  match fuel2 with
  | O => Diverge
  | S f =>
    match o with
    | None => Ret (d, ret)
    | Some i =>
      obind (if negb check || (q_vrf (a_par (sah d i)) =? vrf)
             then sa_destroy fuel d i (sync (q_dir (a_par (sah d i)))) o1 o2 else Ret (d, true)) (fun '(d, ok) =>
      let '(d, nx) := sa_next d i in sa_flush_loop fuel f d check vrf sync o1 o2 nx (ret && ok))
    end
  end.
Definition sa_flush (fuel : nat) (d : db) (check : bool) (vrf : Z) (sync : Z -> bool) (o1 o2 : bool) : outcome (db * bool) :=
  let '(d, o) := sa_first d in sa_flush_loop fuel fuel d check vrf sync o1 o2 o true.

(* ofp_ipsec.c:737-748, ofpi_ipsec.h:159-174: ofp_ipsec_out_lookup; result: the
   packet is dropped, and the SA to apply; the lock stays held if an SA was found *)
Definition out_lookup (fuel : nat) (d : db) (vrf : Z) (l3 : list Z) : outcome (db * (bool * option nat)) :=
  if negb (active d) then Ret (d, (false, None)) else
  if rheld d then Diverge else
  obind (sp_lookup fuel d 1 vrf l3) (fun '(a, sa) =>
  let d := match sa with None => d | Some _ => w_held d true end in
  Ret (d, (match a, sa with DISCARD, _ => true | PROTECT, None => true | _, _ => false end, sa))).
(* ofpi_ipsec.h:180-184: ofp_ipsec_output_cancel, and the end of ofp_ipsec_output *)
Definition out_release (d : db) : outcome db := if rheld d then Ret (w_held d false) else UB.
(* ofpi_ipsec.h:123-140: ofp_ipsec_inbound_check; result: dropped. 50, 51: ESP, AH;
   decap: OFP_IPSEC_INBOUND_DONE is set on the packet *)
Definition inbound_check (fuel : nat) (d : db) (vrf : Z) (l3 : list Z) (ours decap : bool) : outcome bool :=
  if negb (active d) then Ret false else
  if ours && ((byte l3 9 =? 50) || (byte l3 9 =? 51)) then Ret false else
  if decap then Ret false else
  if rheld d then Diverge else
  obind (sp_lookup fuel d DIR_IN vrf l3) (fun '(a, _) => Ret (match a with BYPASS => false | _ => true end)).
(* ofp_ipsec.c:413-441: a packet decapsulated with SA i; result: accepted *)
Definition input_accepted (d : db) (i : nat) (vrf : Z) (l3 : list Z) : outcome bool :=
  if negb (a_selset (sah d i)) then Ret false else
  obind (selector_match l3 (a_sel (sah d i))) (fun m => Ret (m && (vrf =? q_vrf (a_par (sah d i))))).

(* ofp_ipsec_spd.c:115-140, ofp_ipsec_sad.c:112-139: the free lists after start-up *)
Definition sel0 := mkSel 0 0 0 0 0 0 0 0 0 0.
Definition prevlink (i : nat) : option nat := match i with O => None | S j => Some j end.
Definition db_init (nsp nsa : nat) : db :=
  mkDb (fun i => mkSp (mkSpar 0 DISCARD None 0 sel0 0 0) None None 0 false (prevlink i)) None None None (prevlink nsp)
       (fun i => mkSa (mkSapar 0 0 0 false false 0 0 0 0) false false sel0 0 false (prevlink i)) None (prevlink nsa) false false.

(* one call; the client's handles are record numbers *)
Inductive call :=
| CSpCreate (p : spar) | CSpDestroy (i : nat) | CSpFlush (vrf : Z) | CSpBind (i j : nat)
| CSpFind (id : Z) | CSpFirst | CSpNext (i : nat) | CSpRef (i : nat) | CSpUnref (i : nat) | CSpInfo (i : nat)
| CSaCreate (q : sapar) (odp : bool) | CSaDestroy (i : nat) (o1 o2 : bool) | CSaFlush (vrf : Z) (o1 o2 : bool)
| CSaDone (i : nat) (o2 : bool)
| CSaFind (id : Z) | CSaFirst | CSaNext (i : nat) | CSaRef (i : nat) | CSaUnref (i : nat) | CSaInfo (i : nat)
| CStop (o1 o2 : bool)
| COut (vrf : Z) (l3 : list Z) | CRelease | CIn (vrf : Z) (l3 : list Z) (ours decap : bool) | CInput (i : nat) (vrf : Z) (l3 : list Z).
Inductive answer :=
| AHandle (o : option nat) | ARc (ok : bool) | AUnit | ASp (destroyed : bool) (p : spar) | ASa (s : sastat) (q : sapar)
| AOut (drop : bool) (sa : option nat) | ABool (b : bool).
(* ofp_ipsec.c:825-856: the completion event of an asynchronous disable is CSaDone;
   CStop is ofp_ipsec_stop_global (ofp_ipsec.c:318-323) *)
Definition istep (fuel : nat) (sync : Z -> bool) (d : db) (c : call) : outcome (db * answer) :=
  let hd := fun '(d, o) => Ret (d, AHandle o) in
  let rc := fun '(d, b) => Ret (d, ARc b) in
  match c with
  | CSpCreate p => obind (sp_create fuel d p) hd
  | CSpDestroy i => obind (sp_destroy fuel d i) rc
  | CSpFlush v => obind (sp_flush fuel d true v) rc
  | CSpBind i j => obind (sp_bind d i j) rc
  | CSpFind id => obind (sp_find_by_id fuel d id) hd
  | CSpFirst => hd (sp_first d)
  | CSpNext i => hd (sp_next d i)
  | CSpRef i => Ret (sp_ref d (Some i), AUnit)
  | CSpUnref i => Ret (sp_unref d (Some i), AUnit)
  | CSpInfo i => Ret (d, let '(b, p) := sp_get_info d i in ASp b p)
  | CSaCreate q odp => obind (sa_create fuel d q odp) hd
  | CSaDestroy i o1 o2 => obind (sa_destroy fuel d i (sync (q_dir (a_par (sah d i)))) o1 o2) rc
  | CSaFlush v o1 o2 => obind (sa_flush fuel d true v sync o1 o2) rc
  | CSaDone i o2 => obind (sa_destroy_finish fuel d i o2) rc
  | CSaFind id => obind (sa_find_by_id fuel d id) hd
  | CSaFirst => hd (sa_first d)
  | CSaNext i => hd (sa_next d i)
  | CSaRef i => Ret (sa_ref d (Some i), AUnit)
  | CSaUnref i => Ret (sa_unref d (Some i), AUnit)
  | CSaInfo i => Ret (d, let '(s, q) := sa_get_info d i in ASa s q)
  | CStop o1 o2 => obind (sp_flush fuel d false 0) (fun '(d, _) => obind (sa_flush fuel d false 0 sync o1 o2) (fun '(d, _) => Ret (d, ARc true)))
  | COut v l => obind (out_lookup fuel d v l) (fun '(d, (b, o)) => Ret (d, AOut b o))
  | CRelease => obind (out_release d) (fun d => Ret (d, AUnit))
  | CIn v l ours decap => obind (inbound_check fuel d v l ours decap) (fun b => Ret (d, ABool b))
  | CInput i v l => obind (input_accepted d i v l) (fun b => Ret (d, ABool b))
  end.
