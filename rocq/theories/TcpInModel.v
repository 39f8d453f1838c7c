(* TCP input processing of one segment: ofp_tcp_do_segment, src/ofp_tcp_input.c:1325-3063.
   The stages are the code between its labels. What ofp_tcp_output does to the control block is a
   parameter (out). Left out: congestion window and round trip time (no control flow depends on them),
   statistics, locking, wakeups, timers other than TT_REXMT and TT_PERSIST, the SACK scoreboard and
   report (SackModel), receive buffer auto-sizing, ECN, passive mode, MSS updates.
   sbspace of the receive buffer, memory and clock are inputs (env). *)
From Verif Require Import Base TcpSeqModel TcpOptModel TcpReassModel.

(* the fields of struct tcpcb and of its socket used, include/ofpi_tcp_var.h:94-236 *)
Record tcp := mkTcp {
  t_state : Z (* t_state, TCPS_* (0 also stands for a control block that has been closed) *);
  snd_una : Z;
  snd_nxt : Z;
  snd_max : Z;
  snd_wnd : Z (* uint64_t *);
  snd_wl1 : Z;
  snd_wl2 : Z;
  snd_recover : Z;
  max_sndwnd : Z;
  iss : Z;
  irs : Z;
  rnxt : Z (* rcv_nxt *);
  rcv_wnd : Z;
  rcv_adv : Z;
  rcv_up : Z;
  last_ack : Z (* last_ack_sent *);
  ts_recent : Z;
  ts_age : Z (* ts_recent_age *);
  snd_scale : Z;
  rcv_scale : Z;
  req_r_scale : Z (* request_r_scale *);
  dupacks : Z (* t_dupacks *);
  snd_cc : Z (* so_snd.sb_cc *);
  so_error : Z;
  oobmark : Z (* so_oobmark *);
  iobc : option Z (* t_iobc when TCPOOB_HAVEDATA *);
  needsyn : bool (* TF_NEEDSYN *);
  needfin : bool (* TF_NEEDFIN *);
  acknow : bool (* TF_ACKNOW *);
  delack : bool (* TF_DELACK *);
  sackp : bool (* TF_SACK_PERMIT *);
  rcvd_scale : bool (* TF_RCVD_SCALE *);
  req_scale : bool (* TF_REQ_SCALE *);
  rcvd_ts : bool (* TF_RCVD_TSTMP *);
  frec : bool (* TF_FASTRECOVERY *);
  crec : bool (* TF_CONGRECOVERY *);
  rexmt : bool (* TT_REXMT running *);
  persist : bool (* TT_PERSIST running *);
  cantrcv : bool (* SBS_CANTRCVMORE of so_rcv *);
  nofdref : bool (* SS_NOFDREF *);
  oobinline : bool (* SO_OOBINLINE *);
  connected : bool (* ofp_soisconnected has been called *);
  tsegq : list tseg (* t_segq *);
  tsegqlen : Z (* t_segqlen *) }.
Definition set_t_state (v : Z) (t : tcp) : tcp := mkTcp v (snd_una t) (snd_nxt t) (snd_max t) (snd_wnd t) (snd_wl1 t) (snd_wl2 t) (snd_recover t) (max_sndwnd t) (iss t) (irs t) (rnxt t) (rcv_wnd t) (rcv_adv t) (rcv_up t) (last_ack t) (ts_recent t) (ts_age t) (snd_scale t) (rcv_scale t) (req_r_scale t) (dupacks t) (snd_cc t) (so_error t) (oobmark t) (iobc t) (needsyn t) (needfin t) (acknow t) (delack t) (sackp t) (rcvd_scale t) (req_scale t) (rcvd_ts t) (frec t) (crec t) (rexmt t) (persist t) (cantrcv t) (nofdref t) (oobinline t) (connected t) (tsegq t) (tsegqlen t).
Definition set_snd_una (v : Z) (t : tcp) : tcp := mkTcp (t_state t) v (snd_nxt t) (snd_max t) (snd_wnd t) (snd_wl1 t) (snd_wl2 t) (snd_recover t) (max_sndwnd t) (iss t) (irs t) (rnxt t) (rcv_wnd t) (rcv_adv t) (rcv_up t) (last_ack t) (ts_recent t) (ts_age t) (snd_scale t) (rcv_scale t) (req_r_scale t) (dupacks t) (snd_cc t) (so_error t) (oobmark t) (iobc t) (needsyn t) (needfin t) (acknow t) (delack t) (sackp t) (rcvd_scale t) (req_scale t) (rcvd_ts t) (frec t) (crec t) (rexmt t) (persist t) (cantrcv t) (nofdref t) (oobinline t) (connected t) (tsegq t) (tsegqlen t).
Definition set_snd_nxt (v : Z) (t : tcp) : tcp := mkTcp (t_state t) (snd_una t) v (snd_max t) (snd_wnd t) (snd_wl1 t) (snd_wl2 t) (snd_recover t) (max_sndwnd t) (iss t) (irs t) (rnxt t) (rcv_wnd t) (rcv_adv t) (rcv_up t) (last_ack t) (ts_recent t) (ts_age t) (snd_scale t) (rcv_scale t) (req_r_scale t) (dupacks t) (snd_cc t) (so_error t) (oobmark t) (iobc t) (needsyn t) (needfin t) (acknow t) (delack t) (sackp t) (rcvd_scale t) (req_scale t) (rcvd_ts t) (frec t) (crec t) (rexmt t) (persist t) (cantrcv t) (nofdref t) (oobinline t) (connected t) (tsegq t) (tsegqlen t).
Definition set_snd_max (v : Z) (t : tcp) : tcp := mkTcp (t_state t) (snd_una t) (snd_nxt t) v (snd_wnd t) (snd_wl1 t) (snd_wl2 t) (snd_recover t) (max_sndwnd t) (iss t) (irs t) (rnxt t) (rcv_wnd t) (rcv_adv t) (rcv_up t) (last_ack t) (ts_recent t) (ts_age t) (snd_scale t) (rcv_scale t) (req_r_scale t) (dupacks t) (snd_cc t) (so_error t) (oobmark t) (iobc t) (needsyn t) (needfin t) (acknow t) (delack t) (sackp t) (rcvd_scale t) (req_scale t) (rcvd_ts t) (frec t) (crec t) (rexmt t) (persist t) (cantrcv t) (nofdref t) (oobinline t) (connected t) (tsegq t) (tsegqlen t).
Definition set_snd_wnd (v : Z) (t : tcp) : tcp := mkTcp (t_state t) (snd_una t) (snd_nxt t) (snd_max t) v (snd_wl1 t) (snd_wl2 t) (snd_recover t) (max_sndwnd t) (iss t) (irs t) (rnxt t) (rcv_wnd t) (rcv_adv t) (rcv_up t) (last_ack t) (ts_recent t) (ts_age t) (snd_scale t) (rcv_scale t) (req_r_scale t) (dupacks t) (snd_cc t) (so_error t) (oobmark t) (iobc t) (needsyn t) (needfin t) (acknow t) (delack t) (sackp t) (rcvd_scale t) (req_scale t) (rcvd_ts t) (frec t) (crec t) (rexmt t) (persist t) (cantrcv t) (nofdref t) (oobinline t) (connected t) (tsegq t) (tsegqlen t).
Definition set_snd_wl1 (v : Z) (t : tcp) : tcp := mkTcp (t_state t) (snd_una t) (snd_nxt t) (snd_max t) (snd_wnd t) v (snd_wl2 t) (snd_recover t) (max_sndwnd t) (iss t) (irs t) (rnxt t) (rcv_wnd t) (rcv_adv t) (rcv_up t) (last_ack t) (ts_recent t) (ts_age t) (snd_scale t) (rcv_scale t) (req_r_scale t) (dupacks t) (snd_cc t) (so_error t) (oobmark t) (iobc t) (needsyn t) (needfin t) (acknow t) (delack t) (sackp t) (rcvd_scale t) (req_scale t) (rcvd_ts t) (frec t) (crec t) (rexmt t) (persist t) (cantrcv t) (nofdref t) (oobinline t) (connected t) (tsegq t) (tsegqlen t).
Definition set_snd_wl2 (v : Z) (t : tcp) : tcp := mkTcp (t_state t) (snd_una t) (snd_nxt t) (snd_max t) (snd_wnd t) (snd_wl1 t) v (snd_recover t) (max_sndwnd t) (iss t) (irs t) (rnxt t) (rcv_wnd t) (rcv_adv t) (rcv_up t) (last_ack t) (ts_recent t) (ts_age t) (snd_scale t) (rcv_scale t) (req_r_scale t) (dupacks t) (snd_cc t) (so_error t) (oobmark t) (iobc t) (needsyn t) (needfin t) (acknow t) (delack t) (sackp t) (rcvd_scale t) (req_scale t) (rcvd_ts t) (frec t) (crec t) (rexmt t) (persist t) (cantrcv t) (nofdref t) (oobinline t) (connected t) (tsegq t) (tsegqlen t).
Definition set_snd_recover (v : Z) (t : tcp) : tcp := mkTcp (t_state t) (snd_una t) (snd_nxt t) (snd_max t) (snd_wnd t) (snd_wl1 t) (snd_wl2 t) v (max_sndwnd t) (iss t) (irs t) (rnxt t) (rcv_wnd t) (rcv_adv t) (rcv_up t) (last_ack t) (ts_recent t) (ts_age t) (snd_scale t) (rcv_scale t) (req_r_scale t) (dupacks t) (snd_cc t) (so_error t) (oobmark t) (iobc t) (needsyn t) (needfin t) (acknow t) (delack t) (sackp t) (rcvd_scale t) (req_scale t) (rcvd_ts t) (frec t) (crec t) (rexmt t) (persist t) (cantrcv t) (nofdref t) (oobinline t) (connected t) (tsegq t) (tsegqlen t).
Definition set_max_sndwnd (v : Z) (t : tcp) : tcp := mkTcp (t_state t) (snd_una t) (snd_nxt t) (snd_max t) (snd_wnd t) (snd_wl1 t) (snd_wl2 t) (snd_recover t) v (iss t) (irs t) (rnxt t) (rcv_wnd t) (rcv_adv t) (rcv_up t) (last_ack t) (ts_recent t) (ts_age t) (snd_scale t) (rcv_scale t) (req_r_scale t) (dupacks t) (snd_cc t) (so_error t) (oobmark t) (iobc t) (needsyn t) (needfin t) (acknow t) (delack t) (sackp t) (rcvd_scale t) (req_scale t) (rcvd_ts t) (frec t) (crec t) (rexmt t) (persist t) (cantrcv t) (nofdref t) (oobinline t) (connected t) (tsegq t) (tsegqlen t).
Definition set_iss (v : Z) (t : tcp) : tcp := mkTcp (t_state t) (snd_una t) (snd_nxt t) (snd_max t) (snd_wnd t) (snd_wl1 t) (snd_wl2 t) (snd_recover t) (max_sndwnd t) v (irs t) (rnxt t) (rcv_wnd t) (rcv_adv t) (rcv_up t) (last_ack t) (ts_recent t) (ts_age t) (snd_scale t) (rcv_scale t) (req_r_scale t) (dupacks t) (snd_cc t) (so_error t) (oobmark t) (iobc t) (needsyn t) (needfin t) (acknow t) (delack t) (sackp t) (rcvd_scale t) (req_scale t) (rcvd_ts t) (frec t) (crec t) (rexmt t) (persist t) (cantrcv t) (nofdref t) (oobinline t) (connected t) (tsegq t) (tsegqlen t).
Definition set_irs (v : Z) (t : tcp) : tcp := mkTcp (t_state t) (snd_una t) (snd_nxt t) (snd_max t) (snd_wnd t) (snd_wl1 t) (snd_wl2 t) (snd_recover t) (max_sndwnd t) (iss t) v (rnxt t) (rcv_wnd t) (rcv_adv t) (rcv_up t) (last_ack t) (ts_recent t) (ts_age t) (snd_scale t) (rcv_scale t) (req_r_scale t) (dupacks t) (snd_cc t) (so_error t) (oobmark t) (iobc t) (needsyn t) (needfin t) (acknow t) (delack t) (sackp t) (rcvd_scale t) (req_scale t) (rcvd_ts t) (frec t) (crec t) (rexmt t) (persist t) (cantrcv t) (nofdref t) (oobinline t) (connected t) (tsegq t) (tsegqlen t).
Definition set_rnxt (v : Z) (t : tcp) : tcp := mkTcp (t_state t) (snd_una t) (snd_nxt t) (snd_max t) (snd_wnd t) (snd_wl1 t) (snd_wl2 t) (snd_recover t) (max_sndwnd t) (iss t) (irs t) v (rcv_wnd t) (rcv_adv t) (rcv_up t) (last_ack t) (ts_recent t) (ts_age t) (snd_scale t) (rcv_scale t) (req_r_scale t) (dupacks t) (snd_cc t) (so_error t) (oobmark t) (iobc t) (needsyn t) (needfin t) (acknow t) (delack t) (sackp t) (rcvd_scale t) (req_scale t) (rcvd_ts t) (frec t) (crec t) (rexmt t) (persist t) (cantrcv t) (nofdref t) (oobinline t) (connected t) (tsegq t) (tsegqlen t).
Definition set_rcv_wnd (v : Z) (t : tcp) : tcp := mkTcp (t_state t) (snd_una t) (snd_nxt t) (snd_max t) (snd_wnd t) (snd_wl1 t) (snd_wl2 t) (snd_recover t) (max_sndwnd t) (iss t) (irs t) (rnxt t) v (rcv_adv t) (rcv_up t) (last_ack t) (ts_recent t) (ts_age t) (snd_scale t) (rcv_scale t) (req_r_scale t) (dupacks t) (snd_cc t) (so_error t) (oobmark t) (iobc t) (needsyn t) (needfin t) (acknow t) (delack t) (sackp t) (rcvd_scale t) (req_scale t) (rcvd_ts t) (frec t) (crec t) (rexmt t) (persist t) (cantrcv t) (nofdref t) (oobinline t) (connected t) (tsegq t) (tsegqlen t).
Definition set_rcv_adv (v : Z) (t : tcp) : tcp := mkTcp (t_state t) (snd_una t) (snd_nxt t) (snd_max t) (snd_wnd t) (snd_wl1 t) (snd_wl2 t) (snd_recover t) (max_sndwnd t) (iss t) (irs t) (rnxt t) (rcv_wnd t) v (rcv_up t) (last_ack t) (ts_recent t) (ts_age t) (snd_scale t) (rcv_scale t) (req_r_scale t) (dupacks t) (snd_cc t) (so_error t) (oobmark t) (iobc t) (needsyn t) (needfin t) (acknow t) (delack t) (sackp t) (rcvd_scale t) (req_scale t) (rcvd_ts t) (frec t) (crec t) (rexmt t) (persist t) (cantrcv t) (nofdref t) (oobinline t) (connected t) (tsegq t) (tsegqlen t).
Definition set_rcv_up (v : Z) (t : tcp) : tcp := mkTcp (t_state t) (snd_una t) (snd_nxt t) (snd_max t) (snd_wnd t) (snd_wl1 t) (snd_wl2 t) (snd_recover t) (max_sndwnd t) (iss t) (irs t) (rnxt t) (rcv_wnd t) (rcv_adv t) v (last_ack t) (ts_recent t) (ts_age t) (snd_scale t) (rcv_scale t) (req_r_scale t) (dupacks t) (snd_cc t) (so_error t) (oobmark t) (iobc t) (needsyn t) (needfin t) (acknow t) (delack t) (sackp t) (rcvd_scale t) (req_scale t) (rcvd_ts t) (frec t) (crec t) (rexmt t) (persist t) (cantrcv t) (nofdref t) (oobinline t) (connected t) (tsegq t) (tsegqlen t).
Definition set_last_ack (v : Z) (t : tcp) : tcp := mkTcp (t_state t) (snd_una t) (snd_nxt t) (snd_max t) (snd_wnd t) (snd_wl1 t) (snd_wl2 t) (snd_recover t) (max_sndwnd t) (iss t) (irs t) (rnxt t) (rcv_wnd t) (rcv_adv t) (rcv_up t) v (ts_recent t) (ts_age t) (snd_scale t) (rcv_scale t) (req_r_scale t) (dupacks t) (snd_cc t) (so_error t) (oobmark t) (iobc t) (needsyn t) (needfin t) (acknow t) (delack t) (sackp t) (rcvd_scale t) (req_scale t) (rcvd_ts t) (frec t) (crec t) (rexmt t) (persist t) (cantrcv t) (nofdref t) (oobinline t) (connected t) (tsegq t) (tsegqlen t).
Definition set_ts_recent (v : Z) (t : tcp) : tcp := mkTcp (t_state t) (snd_una t) (snd_nxt t) (snd_max t) (snd_wnd t) (snd_wl1 t) (snd_wl2 t) (snd_recover t) (max_sndwnd t) (iss t) (irs t) (rnxt t) (rcv_wnd t) (rcv_adv t) (rcv_up t) (last_ack t) v (ts_age t) (snd_scale t) (rcv_scale t) (req_r_scale t) (dupacks t) (snd_cc t) (so_error t) (oobmark t) (iobc t) (needsyn t) (needfin t) (acknow t) (delack t) (sackp t) (rcvd_scale t) (req_scale t) (rcvd_ts t) (frec t) (crec t) (rexmt t) (persist t) (cantrcv t) (nofdref t) (oobinline t) (connected t) (tsegq t) (tsegqlen t).
Definition set_ts_age (v : Z) (t : tcp) : tcp := mkTcp (t_state t) (snd_una t) (snd_nxt t) (snd_max t) (snd_wnd t) (snd_wl1 t) (snd_wl2 t) (snd_recover t) (max_sndwnd t) (iss t) (irs t) (rnxt t) (rcv_wnd t) (rcv_adv t) (rcv_up t) (last_ack t) (ts_recent t) v (snd_scale t) (rcv_scale t) (req_r_scale t) (dupacks t) (snd_cc t) (so_error t) (oobmark t) (iobc t) (needsyn t) (needfin t) (acknow t) (delack t) (sackp t) (rcvd_scale t) (req_scale t) (rcvd_ts t) (frec t) (crec t) (rexmt t) (persist t) (cantrcv t) (nofdref t) (oobinline t) (connected t) (tsegq t) (tsegqlen t).
Definition set_snd_scale (v : Z) (t : tcp) : tcp := mkTcp (t_state t) (snd_una t) (snd_nxt t) (snd_max t) (snd_wnd t) (snd_wl1 t) (snd_wl2 t) (snd_recover t) (max_sndwnd t) (iss t) (irs t) (rnxt t) (rcv_wnd t) (rcv_adv t) (rcv_up t) (last_ack t) (ts_recent t) (ts_age t) v (rcv_scale t) (req_r_scale t) (dupacks t) (snd_cc t) (so_error t) (oobmark t) (iobc t) (needsyn t) (needfin t) (acknow t) (delack t) (sackp t) (rcvd_scale t) (req_scale t) (rcvd_ts t) (frec t) (crec t) (rexmt t) (persist t) (cantrcv t) (nofdref t) (oobinline t) (connected t) (tsegq t) (tsegqlen t).
Definition set_rcv_scale (v : Z) (t : tcp) : tcp := mkTcp (t_state t) (snd_una t) (snd_nxt t) (snd_max t) (snd_wnd t) (snd_wl1 t) (snd_wl2 t) (snd_recover t) (max_sndwnd t) (iss t) (irs t) (rnxt t) (rcv_wnd t) (rcv_adv t) (rcv_up t) (last_ack t) (ts_recent t) (ts_age t) (snd_scale t) v (req_r_scale t) (dupacks t) (snd_cc t) (so_error t) (oobmark t) (iobc t) (needsyn t) (needfin t) (acknow t) (delack t) (sackp t) (rcvd_scale t) (req_scale t) (rcvd_ts t) (frec t) (crec t) (rexmt t) (persist t) (cantrcv t) (nofdref t) (oobinline t) (connected t) (tsegq t) (tsegqlen t).
Definition set_req_r_scale (v : Z) (t : tcp) : tcp := mkTcp (t_state t) (snd_una t) (snd_nxt t) (snd_max t) (snd_wnd t) (snd_wl1 t) (snd_wl2 t) (snd_recover t) (max_sndwnd t) (iss t) (irs t) (rnxt t) (rcv_wnd t) (rcv_adv t) (rcv_up t) (last_ack t) (ts_recent t) (ts_age t) (snd_scale t) (rcv_scale t) v (dupacks t) (snd_cc t) (so_error t) (oobmark t) (iobc t) (needsyn t) (needfin t) (acknow t) (delack t) (sackp t) (rcvd_scale t) (req_scale t) (rcvd_ts t) (frec t) (crec t) (rexmt t) (persist t) (cantrcv t) (nofdref t) (oobinline t) (connected t) (tsegq t) (tsegqlen t).
Definition set_dupacks (v : Z) (t : tcp) : tcp := mkTcp (t_state t) (snd_una t) (snd_nxt t) (snd_max t) (snd_wnd t) (snd_wl1 t) (snd_wl2 t) (snd_recover t) (max_sndwnd t) (iss t) (irs t) (rnxt t) (rcv_wnd t) (rcv_adv t) (rcv_up t) (last_ack t) (ts_recent t) (ts_age t) (snd_scale t) (rcv_scale t) (req_r_scale t) v (snd_cc t) (so_error t) (oobmark t) (iobc t) (needsyn t) (needfin t) (acknow t) (delack t) (sackp t) (rcvd_scale t) (req_scale t) (rcvd_ts t) (frec t) (crec t) (rexmt t) (persist t) (cantrcv t) (nofdref t) (oobinline t) (connected t) (tsegq t) (tsegqlen t).
Definition set_snd_cc (v : Z) (t : tcp) : tcp := mkTcp (t_state t) (snd_una t) (snd_nxt t) (snd_max t) (snd_wnd t) (snd_wl1 t) (snd_wl2 t) (snd_recover t) (max_sndwnd t) (iss t) (irs t) (rnxt t) (rcv_wnd t) (rcv_adv t) (rcv_up t) (last_ack t) (ts_recent t) (ts_age t) (snd_scale t) (rcv_scale t) (req_r_scale t) (dupacks t) v (so_error t) (oobmark t) (iobc t) (needsyn t) (needfin t) (acknow t) (delack t) (sackp t) (rcvd_scale t) (req_scale t) (rcvd_ts t) (frec t) (crec t) (rexmt t) (persist t) (cantrcv t) (nofdref t) (oobinline t) (connected t) (tsegq t) (tsegqlen t).
Definition set_so_error (v : Z) (t : tcp) : tcp := mkTcp (t_state t) (snd_una t) (snd_nxt t) (snd_max t) (snd_wnd t) (snd_wl1 t) (snd_wl2 t) (snd_recover t) (max_sndwnd t) (iss t) (irs t) (rnxt t) (rcv_wnd t) (rcv_adv t) (rcv_up t) (last_ack t) (ts_recent t) (ts_age t) (snd_scale t) (rcv_scale t) (req_r_scale t) (dupacks t) (snd_cc t) v (oobmark t) (iobc t) (needsyn t) (needfin t) (acknow t) (delack t) (sackp t) (rcvd_scale t) (req_scale t) (rcvd_ts t) (frec t) (crec t) (rexmt t) (persist t) (cantrcv t) (nofdref t) (oobinline t) (connected t) (tsegq t) (tsegqlen t).
Definition set_oobmark (v : Z) (t : tcp) : tcp := mkTcp (t_state t) (snd_una t) (snd_nxt t) (snd_max t) (snd_wnd t) (snd_wl1 t) (snd_wl2 t) (snd_recover t) (max_sndwnd t) (iss t) (irs t) (rnxt t) (rcv_wnd t) (rcv_adv t) (rcv_up t) (last_ack t) (ts_recent t) (ts_age t) (snd_scale t) (rcv_scale t) (req_r_scale t) (dupacks t) (snd_cc t) (so_error t) v (iobc t) (needsyn t) (needfin t) (acknow t) (delack t) (sackp t) (rcvd_scale t) (req_scale t) (rcvd_ts t) (frec t) (crec t) (rexmt t) (persist t) (cantrcv t) (nofdref t) (oobinline t) (connected t) (tsegq t) (tsegqlen t).
Definition set_iobc (v : option Z) (t : tcp) : tcp := mkTcp (t_state t) (snd_una t) (snd_nxt t) (snd_max t) (snd_wnd t) (snd_wl1 t) (snd_wl2 t) (snd_recover t) (max_sndwnd t) (iss t) (irs t) (rnxt t) (rcv_wnd t) (rcv_adv t) (rcv_up t) (last_ack t) (ts_recent t) (ts_age t) (snd_scale t) (rcv_scale t) (req_r_scale t) (dupacks t) (snd_cc t) (so_error t) (oobmark t) v (needsyn t) (needfin t) (acknow t) (delack t) (sackp t) (rcvd_scale t) (req_scale t) (rcvd_ts t) (frec t) (crec t) (rexmt t) (persist t) (cantrcv t) (nofdref t) (oobinline t) (connected t) (tsegq t) (tsegqlen t).
Definition set_needsyn (v : bool) (t : tcp) : tcp := mkTcp (t_state t) (snd_una t) (snd_nxt t) (snd_max t) (snd_wnd t) (snd_wl1 t) (snd_wl2 t) (snd_recover t) (max_sndwnd t) (iss t) (irs t) (rnxt t) (rcv_wnd t) (rcv_adv t) (rcv_up t) (last_ack t) (ts_recent t) (ts_age t) (snd_scale t) (rcv_scale t) (req_r_scale t) (dupacks t) (snd_cc t) (so_error t) (oobmark t) (iobc t) v (needfin t) (acknow t) (delack t) (sackp t) (rcvd_scale t) (req_scale t) (rcvd_ts t) (frec t) (crec t) (rexmt t) (persist t) (cantrcv t) (nofdref t) (oobinline t) (connected t) (tsegq t) (tsegqlen t).
Definition set_needfin (v : bool) (t : tcp) : tcp := mkTcp (t_state t) (snd_una t) (snd_nxt t) (snd_max t) (snd_wnd t) (snd_wl1 t) (snd_wl2 t) (snd_recover t) (max_sndwnd t) (iss t) (irs t) (rnxt t) (rcv_wnd t) (rcv_adv t) (rcv_up t) (last_ack t) (ts_recent t) (ts_age t) (snd_scale t) (rcv_scale t) (req_r_scale t) (dupacks t) (snd_cc t) (so_error t) (oobmark t) (iobc t) (needsyn t) v (acknow t) (delack t) (sackp t) (rcvd_scale t) (req_scale t) (rcvd_ts t) (frec t) (crec t) (rexmt t) (persist t) (cantrcv t) (nofdref t) (oobinline t) (connected t) (tsegq t) (tsegqlen t).
Definition set_acknow (v : bool) (t : tcp) : tcp := mkTcp (t_state t) (snd_una t) (snd_nxt t) (snd_max t) (snd_wnd t) (snd_wl1 t) (snd_wl2 t) (snd_recover t) (max_sndwnd t) (iss t) (irs t) (rnxt t) (rcv_wnd t) (rcv_adv t) (rcv_up t) (last_ack t) (ts_recent t) (ts_age t) (snd_scale t) (rcv_scale t) (req_r_scale t) (dupacks t) (snd_cc t) (so_error t) (oobmark t) (iobc t) (needsyn t) (needfin t) v (delack t) (sackp t) (rcvd_scale t) (req_scale t) (rcvd_ts t) (frec t) (crec t) (rexmt t) (persist t) (cantrcv t) (nofdref t) (oobinline t) (connected t) (tsegq t) (tsegqlen t).
Definition set_delack (v : bool) (t : tcp) : tcp := mkTcp (t_state t) (snd_una t) (snd_nxt t) (snd_max t) (snd_wnd t) (snd_wl1 t) (snd_wl2 t) (snd_recover t) (max_sndwnd t) (iss t) (irs t) (rnxt t) (rcv_wnd t) (rcv_adv t) (rcv_up t) (last_ack t) (ts_recent t) (ts_age t) (snd_scale t) (rcv_scale t) (req_r_scale t) (dupacks t) (snd_cc t) (so_error t) (oobmark t) (iobc t) (needsyn t) (needfin t) (acknow t) v (sackp t) (rcvd_scale t) (req_scale t) (rcvd_ts t) (frec t) (crec t) (rexmt t) (persist t) (cantrcv t) (nofdref t) (oobinline t) (connected t) (tsegq t) (tsegqlen t).
Definition set_sackp (v : bool) (t : tcp) : tcp := mkTcp (t_state t) (snd_una t) (snd_nxt t) (snd_max t) (snd_wnd t) (snd_wl1 t) (snd_wl2 t) (snd_recover t) (max_sndwnd t) (iss t) (irs t) (rnxt t) (rcv_wnd t) (rcv_adv t) (rcv_up t) (last_ack t) (ts_recent t) (ts_age t) (snd_scale t) (rcv_scale t) (req_r_scale t) (dupacks t) (snd_cc t) (so_error t) (oobmark t) (iobc t) (needsyn t) (needfin t) (acknow t) (delack t) v (rcvd_scale t) (req_scale t) (rcvd_ts t) (frec t) (crec t) (rexmt t) (persist t) (cantrcv t) (nofdref t) (oobinline t) (connected t) (tsegq t) (tsegqlen t).
Definition set_rcvd_scale (v : bool) (t : tcp) : tcp := mkTcp (t_state t) (snd_una t) (snd_nxt t) (snd_max t) (snd_wnd t) (snd_wl1 t) (snd_wl2 t) (snd_recover t) (max_sndwnd t) (iss t) (irs t) (rnxt t) (rcv_wnd t) (rcv_adv t) (rcv_up t) (last_ack t) (ts_recent t) (ts_age t) (snd_scale t) (rcv_scale t) (req_r_scale t) (dupacks t) (snd_cc t) (so_error t) (oobmark t) (iobc t) (needsyn t) (needfin t) (acknow t) (delack t) (sackp t) v (req_scale t) (rcvd_ts t) (frec t) (crec t) (rexmt t) (persist t) (cantrcv t) (nofdref t) (oobinline t) (connected t) (tsegq t) (tsegqlen t).
Definition set_req_scale (v : bool) (t : tcp) : tcp := mkTcp (t_state t) (snd_una t) (snd_nxt t) (snd_max t) (snd_wnd t) (snd_wl1 t) (snd_wl2 t) (snd_recover t) (max_sndwnd t) (iss t) (irs t) (rnxt t) (rcv_wnd t) (rcv_adv t) (rcv_up t) (last_ack t) (ts_recent t) (ts_age t) (snd_scale t) (rcv_scale t) (req_r_scale t) (dupacks t) (snd_cc t) (so_error t) (oobmark t) (iobc t) (needsyn t) (needfin t) (acknow t) (delack t) (sackp t) (rcvd_scale t) v (rcvd_ts t) (frec t) (crec t) (rexmt t) (persist t) (cantrcv t) (nofdref t) (oobinline t) (connected t) (tsegq t) (tsegqlen t).
Definition set_rcvd_ts (v : bool) (t : tcp) : tcp := mkTcp (t_state t) (snd_una t) (snd_nxt t) (snd_max t) (snd_wnd t) (snd_wl1 t) (snd_wl2 t) (snd_recover t) (max_sndwnd t) (iss t) (irs t) (rnxt t) (rcv_wnd t) (rcv_adv t) (rcv_up t) (last_ack t) (ts_recent t) (ts_age t) (snd_scale t) (rcv_scale t) (req_r_scale t) (dupacks t) (snd_cc t) (so_error t) (oobmark t) (iobc t) (needsyn t) (needfin t) (acknow t) (delack t) (sackp t) (rcvd_scale t) (req_scale t) v (frec t) (crec t) (rexmt t) (persist t) (cantrcv t) (nofdref t) (oobinline t) (connected t) (tsegq t) (tsegqlen t).
Definition set_frec (v : bool) (t : tcp) : tcp := mkTcp (t_state t) (snd_una t) (snd_nxt t) (snd_max t) (snd_wnd t) (snd_wl1 t) (snd_wl2 t) (snd_recover t) (max_sndwnd t) (iss t) (irs t) (rnxt t) (rcv_wnd t) (rcv_adv t) (rcv_up t) (last_ack t) (ts_recent t) (ts_age t) (snd_scale t) (rcv_scale t) (req_r_scale t) (dupacks t) (snd_cc t) (so_error t) (oobmark t) (iobc t) (needsyn t) (needfin t) (acknow t) (delack t) (sackp t) (rcvd_scale t) (req_scale t) (rcvd_ts t) v (crec t) (rexmt t) (persist t) (cantrcv t) (nofdref t) (oobinline t) (connected t) (tsegq t) (tsegqlen t).
Definition set_crec (v : bool) (t : tcp) : tcp := mkTcp (t_state t) (snd_una t) (snd_nxt t) (snd_max t) (snd_wnd t) (snd_wl1 t) (snd_wl2 t) (snd_recover t) (max_sndwnd t) (iss t) (irs t) (rnxt t) (rcv_wnd t) (rcv_adv t) (rcv_up t) (last_ack t) (ts_recent t) (ts_age t) (snd_scale t) (rcv_scale t) (req_r_scale t) (dupacks t) (snd_cc t) (so_error t) (oobmark t) (iobc t) (needsyn t) (needfin t) (acknow t) (delack t) (sackp t) (rcvd_scale t) (req_scale t) (rcvd_ts t) (frec t) v (rexmt t) (persist t) (cantrcv t) (nofdref t) (oobinline t) (connected t) (tsegq t) (tsegqlen t).
Definition set_rexmt (v : bool) (t : tcp) : tcp := mkTcp (t_state t) (snd_una t) (snd_nxt t) (snd_max t) (snd_wnd t) (snd_wl1 t) (snd_wl2 t) (snd_recover t) (max_sndwnd t) (iss t) (irs t) (rnxt t) (rcv_wnd t) (rcv_adv t) (rcv_up t) (last_ack t) (ts_recent t) (ts_age t) (snd_scale t) (rcv_scale t) (req_r_scale t) (dupacks t) (snd_cc t) (so_error t) (oobmark t) (iobc t) (needsyn t) (needfin t) (acknow t) (delack t) (sackp t) (rcvd_scale t) (req_scale t) (rcvd_ts t) (frec t) (crec t) v (persist t) (cantrcv t) (nofdref t) (oobinline t) (connected t) (tsegq t) (tsegqlen t).
Definition set_persist (v : bool) (t : tcp) : tcp := mkTcp (t_state t) (snd_una t) (snd_nxt t) (snd_max t) (snd_wnd t) (snd_wl1 t) (snd_wl2 t) (snd_recover t) (max_sndwnd t) (iss t) (irs t) (rnxt t) (rcv_wnd t) (rcv_adv t) (rcv_up t) (last_ack t) (ts_recent t) (ts_age t) (snd_scale t) (rcv_scale t) (req_r_scale t) (dupacks t) (snd_cc t) (so_error t) (oobmark t) (iobc t) (needsyn t) (needfin t) (acknow t) (delack t) (sackp t) (rcvd_scale t) (req_scale t) (rcvd_ts t) (frec t) (crec t) (rexmt t) v (cantrcv t) (nofdref t) (oobinline t) (connected t) (tsegq t) (tsegqlen t).
Definition set_cantrcv (v : bool) (t : tcp) : tcp := mkTcp (t_state t) (snd_una t) (snd_nxt t) (snd_max t) (snd_wnd t) (snd_wl1 t) (snd_wl2 t) (snd_recover t) (max_sndwnd t) (iss t) (irs t) (rnxt t) (rcv_wnd t) (rcv_adv t) (rcv_up t) (last_ack t) (ts_recent t) (ts_age t) (snd_scale t) (rcv_scale t) (req_r_scale t) (dupacks t) (snd_cc t) (so_error t) (oobmark t) (iobc t) (needsyn t) (needfin t) (acknow t) (delack t) (sackp t) (rcvd_scale t) (req_scale t) (rcvd_ts t) (frec t) (crec t) (rexmt t) (persist t) v (nofdref t) (oobinline t) (connected t) (tsegq t) (tsegqlen t).
Definition set_nofdref (v : bool) (t : tcp) : tcp := mkTcp (t_state t) (snd_una t) (snd_nxt t) (snd_max t) (snd_wnd t) (snd_wl1 t) (snd_wl2 t) (snd_recover t) (max_sndwnd t) (iss t) (irs t) (rnxt t) (rcv_wnd t) (rcv_adv t) (rcv_up t) (last_ack t) (ts_recent t) (ts_age t) (snd_scale t) (rcv_scale t) (req_r_scale t) (dupacks t) (snd_cc t) (so_error t) (oobmark t) (iobc t) (needsyn t) (needfin t) (acknow t) (delack t) (sackp t) (rcvd_scale t) (req_scale t) (rcvd_ts t) (frec t) (crec t) (rexmt t) (persist t) (cantrcv t) v (oobinline t) (connected t) (tsegq t) (tsegqlen t).
Definition set_oobinline (v : bool) (t : tcp) : tcp := mkTcp (t_state t) (snd_una t) (snd_nxt t) (snd_max t) (snd_wnd t) (snd_wl1 t) (snd_wl2 t) (snd_recover t) (max_sndwnd t) (iss t) (irs t) (rnxt t) (rcv_wnd t) (rcv_adv t) (rcv_up t) (last_ack t) (ts_recent t) (ts_age t) (snd_scale t) (rcv_scale t) (req_r_scale t) (dupacks t) (snd_cc t) (so_error t) (oobmark t) (iobc t) (needsyn t) (needfin t) (acknow t) (delack t) (sackp t) (rcvd_scale t) (req_scale t) (rcvd_ts t) (frec t) (crec t) (rexmt t) (persist t) (cantrcv t) (nofdref t) v (connected t) (tsegq t) (tsegqlen t).
Definition set_connected (v : bool) (t : tcp) : tcp := mkTcp (t_state t) (snd_una t) (snd_nxt t) (snd_max t) (snd_wnd t) (snd_wl1 t) (snd_wl2 t) (snd_recover t) (max_sndwnd t) (iss t) (irs t) (rnxt t) (rcv_wnd t) (rcv_adv t) (rcv_up t) (last_ack t) (ts_recent t) (ts_age t) (snd_scale t) (rcv_scale t) (req_r_scale t) (dupacks t) (snd_cc t) (so_error t) (oobmark t) (iobc t) (needsyn t) (needfin t) (acknow t) (delack t) (sackp t) (rcvd_scale t) (req_scale t) (rcvd_ts t) (frec t) (crec t) (rexmt t) (persist t) (cantrcv t) (nofdref t) (oobinline t) v (tsegq t) (tsegqlen t).
Definition set_tsegq (v : list tseg) (t : tcp) : tcp := mkTcp (t_state t) (snd_una t) (snd_nxt t) (snd_max t) (snd_wnd t) (snd_wl1 t) (snd_wl2 t) (snd_recover t) (max_sndwnd t) (iss t) (irs t) (rnxt t) (rcv_wnd t) (rcv_adv t) (rcv_up t) (last_ack t) (ts_recent t) (ts_age t) (snd_scale t) (rcv_scale t) (req_r_scale t) (dupacks t) (snd_cc t) (so_error t) (oobmark t) (iobc t) (needsyn t) (needfin t) (acknow t) (delack t) (sackp t) (rcvd_scale t) (req_scale t) (rcvd_ts t) (frec t) (crec t) (rexmt t) (persist t) (cantrcv t) (nofdref t) (oobinline t) (connected t) v (tsegqlen t).
Definition set_tsegqlen (v : Z) (t : tcp) : tcp := mkTcp (t_state t) (snd_una t) (snd_nxt t) (snd_max t) (snd_wnd t) (snd_wl1 t) (snd_wl2 t) (snd_recover t) (max_sndwnd t) (iss t) (irs t) (rnxt t) (rcv_wnd t) (rcv_adv t) (rcv_up t) (last_ack t) (ts_recent t) (ts_age t) (snd_scale t) (rcv_scale t) (req_r_scale t) (dupacks t) (snd_cc t) (so_error t) (oobmark t) (iobc t) (needsyn t) (needfin t) (acknow t) (delack t) (sackp t) (rcvd_scale t) (req_scale t) (rcvd_ts t) (frec t) (crec t) (rexmt t) (persist t) (cantrcv t) (nofdref t) (oobinline t) (connected t) (tsegq t) v.

Definition CLOSED : Z := 0.
Definition SYN_SENT : Z := 2.
Definition SYN_RECEIVED : Z := 3.
Definition ESTABLISHED : Z := 4.
Definition CLOSE_WAIT : Z := 5.
Definition FIN_WAIT_1 : Z := 6.
Definition CLOSING : Z := 7.
Definition LAST_ACK : Z := 8.
Definition FIN_WAIT_2 : Z := 9.
Definition TIME_WAIT : Z := 10.
(* include/ofpi_tcp_fsm.h:77-78 *)
Definition HAVEESTABLISHED (s : Z) : bool := s >=? ESTABLISHED.
Definition HAVERCVDFIN (s : Z) : bool := s >=? TIME_WAIT.
Definition ECONNRESET : Z := 54.
Definition ECONNREFUSED : Z := 61.
Definition MAXWIN : Z := 65535.
Definition PAWS_IDLE : Z := 2073600000.
Definition REXMTTHRESH : Z := 3.

(* a segment as received: header fields, parsed options and payload (exactly tlen bytes) *)
Record seg := mkSeg {
  g_uid : Z; g_seq : Z; g_ack : Z; g_win : Z;
  g_fsyn : bool; g_ffin : bool; g_frst : bool; g_furg : bool; g_fack : bool;
  g_urp : Z; g_opt : topt; g_data : list Z; g_mcast : bool }.  (* g_mcast: the checks at 3092-3111 forbid a reset *)

(* what a call depends on besides the control block *)
Record env := mkEnv {
  e_space : Z;       (* sbspace(&so->so_rcv) *)
  e_hiwat : Z; e_maxseg : Z; e_alloc : bool;  (* for ofp_tcp_reass *)
  e_delayack : bool; (* DELAY_ACK(tp) *)
  e_holes : bool;    (* snd_holes not empty *)
  e_now : Z;         (* tcp_ts_getticks() *)
  e_3042 : bool; e_insecure : bool; e_sbmax : Z; e_rcvcc : Z }.

(* the segment while it is trimmed: th_seq, th_urp, thflags, payload. th->th_flags keeps the FIN flag received *)
Record cur := mkCur { c_seq : Z; c_urp : Z; c_syn : bool; c_fin : bool; c_urg : bool; c_data : list Z }.

(* observable effects: segments handed over, end of stream signalled, reset sent (sequence, ack), output called *)
Record ev := mkEv { v_out : list (bool * tseg); v_eof : bool; v_rst : option (Z * option Z) }.
Definition no_ev : ev := mkEv [] false None.
Definition res : Type := outcome (tcp * ev).

Definition zlen (l : list Z) : Z := Z.of_nat (length l).

(* 3070-3125 tcp_dropwithreset; the segment as it is then *)
Definition reset_of (g : seg) (c : cur) : option (Z * option Z) :=
  if g_frst g || g_mcast g then None
  else if g_fack g then Some (g_ack g, None)
  else Some (0, Some (u32 (c_seq c + zlen (c_data c) + (if g_fsyn g then 1 else 0)))).
Definition drop (t : tcp) : res := Ret (t, no_ev).
Definition dropwithreset (g : seg) (c : cur) (t : tcp) : res := Ret (t, mkEv [] false (reset_of g c)).
(* src/ofp_tcp_subr.c:1006-1033 ofp_tcp_close, 870-887 ofp_tcp_drop *)
Definition tcp_close (t : tcp) : tcp := set_t_state CLOSED t.
Definition tcp_drop (out : tcp -> tcp) (err : Z) (t : tcp) : tcp :=
  let t := if t_state t >=? SYN_RECEIVED then out (set_t_state CLOSED t) else t in
  tcp_close (set_so_error err t).
(* 2972-3006 dropafterack *)
Definition dropafterack (out : tcp -> tcp) (g : seg) (c : cur) (t : tcp) : res :=
  if (t_state t =? SYN_RECEIVED) && g_fack g && (SEQ_GT (snd_una t) (g_ack g) || SEQ_GT (g_ack g) (snd_max t))
  then dropwithreset g c t
  else Ret (out (set_acknow true t), no_ev).

(* 2925-2970: output, then check_delack *)
Definition check_delack (t : tcp) : tcp := if delack t then set_delack false t else t.
Definition finish (out : tcp -> tcp) (needoutput : bool) (t : tcp) (e : ev) : res :=
  let t := if needoutput || acknow t then out t else t in
  Ret (check_delack t, e).
(* 2861-2923: FIN processing; fin is thflags & FIN at that point *)
Definition do_fin (out : tcp -> tcp) (needoutput fin : bool) (t : tcp) (outs : list (bool * tseg)) : res :=
  if negb fin then finish out needoutput t (mkEv outs false None)
  else
    let seen := HAVERCVDFIN (t_state t) in
    let t := if seen then t else
             let t := set_cantrcv true t in
             let t := if needsyn t then set_delack true t else set_acknow true t in
             set_rnxt (u32 (rnxt t + 1)) t in
    let e := mkEv outs (negb seen) None in
    if (t_state t =? SYN_RECEIVED) || (t_state t =? ESTABLISHED) then finish out needoutput (set_t_state CLOSE_WAIT t) e
    else if t_state t =? FIN_WAIT_1 then finish out needoutput (set_t_state CLOSING t) e
    else if t_state t =? FIN_WAIT_2 then Ret (set_t_state TIME_WAIT t, e)
    else finish out needoutput t e.
(* the reassembly view of the control block, and back *)
Definition rview (t : tcp) : tcb := mkTcb (rnxt t) (tsegq t) (tsegqlen t) (HAVEESTABLISHED (t_state t)).
Definition rback (r : tcb) (t : tcp) : tcp := set_rnxt (rcv_nxt r) (set_tsegq (segq r) (set_tsegqlen (segqlen r) t)).
(* 2763-2859 dodata; tlen is the segment length, which still counts a byte taken out of band from the data *)
Definition dodata (e : env) (out : tcp -> tcp) (needoutput : bool) (g : seg) (c : cur) (tlen : Z) (t : tcp) : res :=
  let s := t_state t in
  if negb (tlen =? 0) && ((s =? CLOSE_WAIT) || (s =? SYN_SENT) || (s =? CLOSING) || (s =? LAST_ACK) || (s =? TIME_WAIT)) then drop t
  else if (negb (tlen =? 0) || c_fin c) && negb (HAVERCVDFIN s) then
    if tlen <=? e_space e then
      (* 2798-2830; the fast path and ofp_tcp_reass take the FIN flag from th->th_flags *)
      let fast := (c_seq c =? rnxt t) && (match tsegq t with [] => true | _ => false end) && HAVEESTABLISHED s in
      obind (tcp_data (e_hiwat e) (e_maxseg e) (e_alloc e) (cantrcv t) (rview t)
               (mkIn (g_uid g) (c_seq c) tlen (g_ffin g) (c_data c))) (fun '(r, te) =>
      let t := rback r t in
      let t := if fast then (if e_delayack e then set_delack true t else set_acknow true t) else set_acknow true t in
      do_fin out needoutput (te_ret te) t (te_out te))
    else do_fin out needoutput false (set_acknow true t) []
  else do_fin out needoutput false t [].
(* 3226-3238 tcp_pulloutofband *)
Definition rem_byte (i : nat) (l : list Z) : list Z := firstn i l ++ skipn (S i) l.
(* 2684-2700: window update *)
Definition win_news (tiwin : Z) (g : seg) (c : cur) (t : tcp) : bool :=
  g_fack g && (SEQ_LT (snd_wl1 t) (c_seq c) ||
     ((snd_wl1 t =? c_seq c) && (SEQ_LT (snd_wl2 t) (g_ack g) || ((snd_wl2 t =? g_ack g) && (tiwin >? snd_wnd t))))).
Definition win_update (tiwin : Z) (g : seg) (c : cur) (t : tcp) : tcp :=
  if win_news tiwin g c t then
    let t := set_snd_wl2 (g_ack g) (set_snd_wl1 (c_seq c) (set_snd_wnd tiwin t)) in
    if snd_wnd t >? max_sndwnd t then set_max_sndwnd (snd_wnd t) t else t
  else t.
(* 2731-2740: the urgent pointer *)
Definition urg_update (e : env) (c : cur) (t : tcp) : tcp :=
  if SEQ_GT (u32 (c_seq c + c_urp c)) (rcv_up t) then
    let t := set_rcv_up (u32 (c_seq c + c_urp c)) t in
    set_iobc None (set_oobmark (u32 (e_rcvcc e + (rcv_up t - rnxt t) - 1)) t)
  else t.
(* 2676-2761 step6: window update, urgent data *)
Definition step6 (e : env) (out : tcp -> tcp) (needoutput : bool) (tiwin : Z) (g : seg) (c : cur) (t0 : tcp) : res :=
  let t := win_update tiwin g c t0 in
  let no := needoutput || win_news tiwin g c t0 in
  if c_urg c && negb (c_urp c =? 0) && negb (HAVERCVDFIN (t_state t)) then
    if c_urp c + e_rcvcc e >? e_sbmax e then dodata e out no g c (zlen (c_data c)) t
    else
      let t := urg_update e c t in
      if (c_urp c <=? zlen (c_data c)) && negb (oobinline t) then
        let i := Z.to_nat (c_urp c - 1) in
        match nth_error (c_data c) i with
        | None => UB
        | Some b => dodata e out no g (mkCur (c_seq c) (c_urp c) (c_syn c) (c_fin c) (c_urg c) (rem_byte i (c_data c))) (zlen (c_data c)) (set_iobc (Some b) t)
        end
      else dodata e out no g c (zlen (c_data c)) t
  else
    dodata e out no g c (zlen (c_data c)) (if SEQ_GT (rnxt t) (rcv_up t) then set_rcv_up (rnxt t) t else t).
(* 2560-2570: retransmission timer *)
Definition ack_timer (g : seg) (t : tcp) : tcp :=
  if g_ack g =? snd_max t then set_rexmt false t else if negb (persist t) then set_rexmt true t else t.
(* 2587-2598: acknowledged data leaves the send buffer; more than all of it means the FIN too *)
Definition ack_drop (acked : Z) (t : tcp) : tcp :=
  if acked >? snd_cc t then set_snd_cc 0 (set_snd_wnd (u64 (snd_wnd t - snd_cc t)) t)
  else set_snd_cc (snd_cc t - acked) (set_snd_wnd (u64 (snd_wnd t - acked)) t).
(* 2601-2621 *)
Definition ack_recover (g : seg) (t : tcp) : tcp :=
  if frec t || crec t then (if SEQ_GEQ (g_ack g) (snd_recover t) then set_frec false (set_crec false t) else t)
  else if SEQ_GT (snd_una t) (snd_recover t) && SEQ_LEQ (g_ack g) (snd_recover t) then set_snd_recover (u32 (g_ack g - 1)) t else t.
Definition ack_una (g : seg) (t : tcp) : tcp :=
  let t := set_snd_una (g_ack g) t in
  let t := if sackp t && SEQ_GT (snd_una t) (snd_recover t) then set_snd_recover (snd_una t) t else t in
  if SEQ_LT (snd_nxt t) (snd_una t) then set_snd_nxt (snd_una t) t else t.
(* 2506-2674 process_ACK *)
Definition process_ack (e : env) (out : tcp -> tcp) (tiwin : Z) (g : seg) (c : cur) (t : tcp) : res :=
  let acked := s32 (u32 (g_ack g - snd_una t)) in
  let all := g_ack g =? snd_max t in
  if acked =? 0 then step6 e out all tiwin g c (ack_timer g t) else
  let fin_acked := acked >? snd_cc t in
  let t := ack_una g (ack_recover g (ack_drop acked (ack_timer g t))) in
  if t_state t =? FIN_WAIT_1 then step6 e out all tiwin g c (if fin_acked then set_t_state FIN_WAIT_2 t else t)
  else if t_state t =? CLOSING then
    if fin_acked then Ret (set_t_state TIME_WAIT t, no_ev) else step6 e out all tiwin g c t
  else if t_state t =? LAST_ACK then
    if fin_acked then drop (tcp_close t) else step6 e out all tiwin g c t
  else step6 e out all tiwin g c t.
(* 2460-2490 and src/ofp_tcp_sack.c:560-577, src/ofp_tcp_input.c:3618-3651: partial acks send again from th_ack *)
Definition partial_ack (out : tcp -> tcp) (g : seg) (t : tcp) : tcp :=
  if frec t && SEQ_LT (g_ack g) (snd_recover t) then
    if sackp t then out (set_acknow true (set_rexmt false t))
    else
      let onxt := snd_nxt t in
      let t := out (set_acknow true (set_snd_nxt (g_ack g) (set_rexmt false t))) in
      if SEQ_GT onxt (snd_nxt t) then set_snd_nxt onxt t else t
  else t.
(* 2486-2504: the ACK of a SYN in a half-synchronized connection *)
Definition syn_acked (t : tcp) : tcp :=
  if needsyn t then
    let t := set_snd_una (u32 (snd_una t + 1)) (set_needsyn false t) in
    if rcvd_scale t && req_scale t then set_rcv_scale (req_r_scale t) t else t
  else t.
(* 2399-2425: fast retransmit *)
Definition fast_rexmt (out : tcp -> tcp) (g : seg) (t : tcp) : tcp :=
  let onxt := snd_nxt t in
  let t := out (set_frec true (set_snd_recover (snd_max t) (set_snd_nxt (g_ack g) (set_rexmt false t)))) in
  if SEQ_GT onxt (snd_nxt t) then set_snd_nxt onxt t else t.
(* 2291-2504: ACK processing in the states from ESTABLISHED on *)
Definition do_ack (e : env) (out : tcp -> tcp) (tiwin : Z) (g : seg) (c : cur) (t : tcp) : res :=
  if SEQ_GT (g_ack g) (snd_max t) then dropafterack out g c t
  else if SEQ_LEQ (g_ack g) (snd_una t) then
    if (zlen (c_data c) =? 0) && (tiwin =? snd_wnd t) then
      if negb (rexmt t) || negb (g_ack g =? snd_una t) then step6 e out false tiwin g c (set_dupacks 0 t)
      else
        let t := set_dupacks (dupacks t + 1) t in
        if (dupacks t >? REXMTTHRESH) || frec t then drop (out t)
        else if dupacks t =? REXMTTHRESH then
          if (if sackp t then frec t else SEQ_LEQ (g_ack g) (snd_recover t)) then step6 e out false tiwin g c (set_dupacks 0 t)
          else drop (fast_rexmt out g t)
        else if e_3042 e then drop (out t)
        else step6 e out false tiwin g c t
    else step6 e out false tiwin g c (set_dupacks 0 t)
  else
    process_ack e out tiwin g c (syn_acked (set_dupacks 0 (partial_ack out g t))).
(* 2249-2270: our SYN is acknowledged *)
Definition establish (tiwin : Z) (t : tcp) : tcp :=
  let t := set_connected true t in
  let t := if rcvd_scale t && req_scale t then set_snd_wnd tiwin (set_rcv_scale (req_r_scale t) t) else t in
  if needfin t then set_needfin false (set_t_state FIN_WAIT_1 t) else set_t_state ESTABLISHED t.
(* 2229-2290 and the switch at 2241 *)
Definition ack_switch (e : env) (out : tcp -> tcp) (tiwin : Z) (g : seg) (c : cur) (t : tcp) : res :=
  if t_state t =? SYN_RECEIVED then
    let t := establish tiwin t in
    if (zlen (c_data c) =? 0) && negb (c_fin c) then
      (* 2275-2277: pass queued data to the user *)
      obind (tcp_reass (e_hiwat e) (e_maxseg e) (e_alloc e) (cantrcv t) (rview t) None) (fun '(r, te) =>
      let t := set_snd_wl1 (u32 (c_seq c - 1)) (rback r t) in
      obind (do_ack e out tiwin g c t) (fun '(t, v) => Ret (t, mkEv (te_out te ++ v_out v) (v_eof v) (v_rst v))))
    else do_ack e out tiwin g c (set_snd_wl1 (u32 (c_seq c - 1)) t)
  else do_ack e out tiwin g c t.
(* 2207-2227 *)
Definition need_ack (e : env) (out : tcp -> tcp) (tiwin : Z) (g : seg) (c : cur) (t : tcp) : res :=
  if negb (g_fack g) then
    if (t_state t =? SYN_RECEIVED) || needsyn t then step6 e out false tiwin g c t
    else if acknow t then dropafterack out g c t
    else drop t
  else ack_switch e out tiwin g c t.
(* 2188-2195: the timestamp to echo *)
Definition ts_update (e : env) (g : seg) (c : cur) (t : tcp) : tcp :=
  match o_ts (g_opt g) with
  | Some (tsval, _) =>
    if SEQ_LEQ (c_seq c) (last_ack t) && SEQ_LEQ (last_ack t) (u32 (c_seq c + zlen (c_data c) + (if c_syn c || c_fin c then 1 else 0)))
    then set_ts_recent tsval (set_ts_age (e_now e) t) else t
  | None => t
  end.
(* 2169-2205: timestamp, SYN in the window *)
Definition ts_syn (e : env) (out : tcp -> tcp) (tiwin : Z) (g : seg) (c : cur) (t : tcp) : res :=
  let t := ts_update e g c t in
  if c_syn c then drop (tcp_drop out ECONNRESET t)
  else need_ack e out tiwin g c t.
(* 2127-2167: data after the window *)
Definition trim_tail (e : env) (out : tcp -> tcp) (tiwin : Z) (g : seg) (c : cur) (t : tcp) : res :=
  let tlen := zlen (c_data c) in
  let todrop := s32 (u32 (c_seq c + tlen - (rnxt t + rcv_wnd t))) in
  if todrop >? 0 then
    let c' := mkCur (c_seq c) (c_urp c) (c_syn c) false (c_urg c) (firstn (Z.to_nat (tlen - todrop)) (c_data c)) in
    if todrop >=? tlen then
      if (rcv_wnd t =? 0) && (c_seq c =? rnxt t) then ts_syn e out tiwin g c' (set_acknow true t)
      else dropafterack out g c t
    else ts_syn e out tiwin g c' t
  else ts_syn e out tiwin g c t.
(* 2100-2125: data after the user is gone *)
Definition after_close (e : env) (out : tcp -> tcp) (tiwin : Z) (g : seg) (c : cur) (t : tcp) : res :=
  if nofdref t && (t_state t >? CLOSE_WAIT) && negb (zlen (c_data c) =? 0) then dropwithreset g c (tcp_close t)
  else trim_tail e out tiwin g c t.
(* 2059-2067: a SYN before the window *)
Definition strip_syn (c : cur) : cur :=
  if c_syn c then mkCur (u32 (c_seq c + 1)) (if c_urp c >? 1 then c_urp c - 1 else c_urp c) false (c_fin c) (c_urg c && (c_urp c >? 1)) (c_data c) else c.
(* 2068-2098: n bytes of data go, n at most the length *)
Definition cut_head (n : Z) (fin : bool) (c : cur) : cur :=
  let keep := c_urp c >? n in
  mkCur (u32 (c_seq c + n)) (if keep then c_urp c - n else 0) (c_syn c) fin (c_urg c && keep) (skipn (Z.to_nat n) (c_data c)).
(* 2057-2098: data before rcv_nxt *)
Definition trim_head (e : env) (out : tcp -> tcp) (tiwin : Z) (g : seg) (c : cur) (t : tcp) : res :=
  let todrop := s32 (u32 (rnxt t - c_seq c)) in
  if todrop >? 0 then
    let todrop := if c_syn c then todrop - 1 else todrop in
    let c := strip_syn c in
    let tlen := zlen (c_data c) in
    if (todrop >? tlen) || ((todrop =? tlen) && negb (c_fin c)) then after_close e out tiwin g (cut_head tlen false c) (set_acknow true t)
    else after_close e out tiwin g (cut_head todrop (c_fin c) c) t
  else after_close e out tiwin g c t.
(* 2046-2056 *)
Definition land_check (e : env) (out : tcp -> tcp) (tiwin : Z) (g : seg) (c : cur) (t : tcp) : res :=
  if (t_state t =? SYN_RECEIVED) && SEQ_LT (c_seq c) (irs t) then dropwithreset g c t else trim_head e out tiwin g c t.
(* 2030-2045 PAWS *)
Definition paws (e : env) (out : tcp -> tcp) (tiwin : Z) (g : seg) (c : cur) (t : tcp) : res :=
  match o_ts (g_opt g) with
  | Some (tsval, _) =>
    if negb (ts_recent t =? 0) && TSTMP_LT tsval (ts_recent t) then
      if u32 (e_now e - ts_age t) >? PAWS_IDLE then land_check e out tiwin g c (set_ts_recent 0 t)
      else if negb (zlen (c_data c) =? 0) then dropafterack out g c t else drop t
    else land_check e out tiwin g c t
  | None => land_check e out tiwin g c t
  end.
(* 1986-2028 *)
Definition do_rst (e : env) (g : seg) (c : cur) (t : tcp) : res :=
  let s := c_seq c in
  if SEQ_GEQ s (u32 (last_ack t - 1)) && SEQ_LEQ s (u32 (last_ack t + rcv_wnd t)) then
    if t_state t =? SYN_RECEIVED then drop (tcp_close (set_so_error ECONNREFUSED t))
    else if (t_state t =? ESTABLISHED) && negb (e_insecure e) &&
            negb (SEQ_GEQ s (u32 (rnxt t - 1)) && SEQ_LEQ s (u32 (rnxt t + 1))) &&
            negb (SEQ_GEQ s (u32 (last_ack t - 1)) && SEQ_LEQ s (u32 (last_ack t + 1))) then drop t
    else if (t_state t =? ESTABLISHED) || (t_state t =? FIN_WAIT_1) || (t_state t =? FIN_WAIT_2) || (t_state t =? CLOSE_WAIT)
    then drop (tcp_close (set_so_error ECONNRESET t))
    else if (t_state t =? CLOSING) || (t_state t =? LAST_ACK) then drop (tcp_close t)
    else drop t
  else drop t.
(* 1808-1880: the control block after an acceptable SYN *)
Definition syn_sent_tcb (e : env) (g : seg) (c : cur) (t : tcp) : tcp :=
  let t := set_irs (c_seq c) t in
  let t := set_rcv_adv (u32 (irs t + 1)) (set_rnxt (u32 (irs t + 1)) t) in
  if g_fack g then
    let t := set_connected true t in
    let t := if rcvd_scale t && req_scale t then set_rcv_scale (req_r_scale t) t else t in
    let t := set_rcv_adv (u32 (rcv_adv t + Z.min (rcv_wnd t) (Z.shiftl MAXWIN (rcv_scale t)))) t in
    let t := set_snd_una (u32 (snd_una t + 1)) t in
    let t := if e_delayack e && negb (zlen (c_data c) =? 0) then t else set_acknow true t in
    if needfin t then set_needfin false (set_t_state FIN_WAIT_1 t) else set_t_state ESTABLISHED t
  else set_t_state SYN_RECEIVED (set_rexmt false (set_needsyn true (set_acknow true t))).
(* 1855-1858, 1886-1899: the segment without its SYN, cut to the window *)
Definition syn_sent_seg (clr : bool) (wnd : Z) (c : cur) : cur :=
  let over := zlen (c_data c) >? wnd in
  mkCur (u32 (c_seq c + 1)) (c_urp c) (c_syn c && negb clr) (c_fin c && negb over) (c_urg c)
        (if over then firstn (Z.to_nat wnd) (c_data c) else c_data c).
(* 1793-1924: a segment in SYN_SENT *)
Definition syn_sent (e : env) (out : tcp -> tcp) (tiwin : Z) (g : seg) (c : cur) (t : tcp) : res :=
  if g_fack g && (SEQ_LEQ (g_ack g) (iss t) || SEQ_GT (g_ack g) (snd_max t)) then dropwithreset g c t
  else if g_fack g && g_frst g then drop (tcp_drop out ECONNREFUSED t)
  else if g_frst g then drop t
  else if negb (c_syn c) then drop t
  else
    let t1 := syn_sent_tcb e g c t in
    let c1 := syn_sent_seg (g_fack g && needfin t) (rcv_wnd t) c in
    let t2 := set_rcv_up (c_seq c1) (set_snd_wl1 (u32 (c_seq c1 - 1)) t1) in
    if g_fack g then process_ack e out tiwin g c1 t2 else step6 e out false tiwin g c1 t2.
(* 1754-1792: the slow path *)
Definition slow (e : env) (out : tcp -> tcp) (tiwin : Z) (g : seg) (t : tcp) : res :=
  let win := if e_space e <? 0 then 0 else e_space e in
  let t := set_rcv_wnd (Z.max win (s32 (u32 (rcv_adv t - rnxt t)))) t in
  let c := mkCur (g_seq g) (g_urp g) (g_fsyn g) (g_ffin g) (g_furg g) (g_data g) in
  if (t_state t =? SYN_RECEIVED) && g_fack g && (SEQ_LEQ (g_ack g) (snd_una t) || SEQ_GT (g_ack g) (snd_max t)) then dropwithreset g c t
  else if t_state t =? SYN_SENT then syn_sent e out tiwin g c t
  else if g_frst g then do_rst e g c t
  else paws e out tiwin g c t.
(* 1500-1510 *)
Definition pred_cond (tiwin : Z) (g : seg) (t : tcp) : bool :=
  (t_state t =? ESTABLISHED) && (g_seq g =? rnxt t) &&
  negb (g_fsyn g) && negb (g_ffin g) && negb (g_frst g) && negb (g_furg g) && g_fack g &&
  (snd_nxt t =? snd_max t) && negb (tiwin =? 0) && (tiwin =? snd_wnd t) && negb (needsyn t) && negb (needfin t) &&
  (match tsegq t with [] => true | _ => false end) &&
  (match o_ts (g_opt g) with Some (v, _) => TSTMP_GEQ v (ts_recent t) | None => true end).
(* 1518-1522 *)
Definition pred_ts (e : env) (g : seg) (t : tcp) : tcp :=
  match o_ts (g_opt g) with
  | Some (v, _) => if SEQ_LEQ (g_seq g) (last_ack t) then set_ts_recent v (set_ts_age (e_now e) t) else t
  | None => t
  end.
(* 1524-1630: a pure ACK for outstanding data *)
Definition pred_ack (out : tcp -> tcp) (g : seg) (t : tcp) : tcp :=
  let acked := s32 (u32 (g_ack g - snd_una t)) in
  let t := set_snd_cc (snd_cc t - acked) t in
  let t := if SEQ_GT (snd_una t) (snd_recover t) && SEQ_LEQ (g_ack g) (snd_recover t) then set_snd_recover (u32 (g_ack g - 1)) t else t in
  let t := set_dupacks 0 (set_snd_wl2 (g_ack g) (set_snd_una (g_ack g) t)) in
  let t := if snd_una t =? snd_max t then set_rexmt false t else if negb (persist t) then set_rexmt true t else t in
  let t := if snd_cc t =? 0 then t else out t in
  check_delack t.
(* 1631-1746: in-order data *)
Definition pred_data (e : env) (out : tcp -> tcp) (g : seg) (t : tcp) : tcp :=
  let t := set_rnxt (u32 (rnxt t + zlen (g_data g))) t in
  let t := set_rcv_up (rnxt t) (set_snd_wl1 (g_seq g) t) in
  let t := if e_delayack e then set_delack true t else out (set_acknow true t) in
  check_delack t.
(* 1500-1752: header prediction *)
Definition predict (e : env) (out : tcp -> tcp) (tiwin : Z) (g : seg) (t : tcp) : res :=
  if negb (pred_cond tiwin g t) then slow e out tiwin g t else
  let t := pred_ts e g t in
  let tlen := zlen (g_data g) in
  if tlen =? 0 then
    if SEQ_GT (g_ack g) (snd_una t) && SEQ_LEQ (g_ack g) (snd_max t) && negb (frec t || crec t) &&
       negb (is_so (o_sack (g_opt g))) && negb (e_holes e) then
      if s32 (u32 (g_ack g - snd_una t)) >? snd_cc t then UB       (* ofp_sbdrop of more than there is *)
      else Ret (pred_ack out g t, no_ev)
    else slow e out tiwin g t
  else if (g_ack g =? snd_una t) && (tlen <=? e_space e) then
    Ret (pred_data e out g t, mkEv [(negb (cantrcv t), mkS (g_uid g) (g_seq g) tlen false (g_data g) true)] false None)
  else slow e out tiwin g t.
(* 1470-1498: options of a SYN in SYN_SENT *)
Definition syn_options (e : env) (g : seg) (t : tcp) : tcp :=
  let t := match o_ws (g_opt g) with
           | Some w => if req_scale t then set_snd_scale w (set_rcvd_scale true t) else t
           | None => t
           end in
  let t := set_snd_wnd (g_win g) t in
  let t := match o_ts (g_opt g) with
           | Some (v, _) => set_ts_age (e_now e) (set_ts_recent v (set_rcvd_ts true t))
           | None => t
           end in
  if sackp t && negb (o_sackok (g_opt g)) then set_sackp false t else t.
(* 1325-1498 *)
Definition do_segment (e : env) (out : tcp -> tcp) (g : seg) (t : tcp) : res :=
  predict e out (Z.shiftl (g_win g) (snd_scale t)) g (if (t_state t =? SYN_SENT) && g_fsyn g then syn_options e g t else t).
