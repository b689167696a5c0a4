(** C58: what the HTTP endpoints tell, and to whom. *)
From Coq Require Import List Bool NArith Ascii String Lia.
From Verif Require Import Base BaseLemmas TextModel HttpModel HttpSpec HttpProofs MsgModel RegModel Sess5Model Sess3Model ConnModel BrokerModel BrokerSpec BrokerFacts RunProofs GaugeProofs BrokerProps.
Import ListNotations.
Local Open Scope list_scope.

Section C58.
  Variables (hash5 : wpub5 -> N) (hash3 : wpub3 -> N) (pick : draw -> broker -> string -> string -> N).
  Variables openapi_json api_html : text.
  Notation brun := (brun hash5 hash3 pick).
  Definition scrape (b : broker) : response := serve_http openapi_json api_html true (r_online (b_reg b)) Get "/metrics".

  (** A scrape of a running server has one sample, at least the number of clients that
      are connected.  It is that number if nobody was turned away, no client
      connected while an earlier connection of it was up, and no connection is being
      set up.  Missing: takeovers ([C58_metrics_refuted]). *)
  Theorem C58_metrics_partial : forall c h b, brun c h b ->
    exists body n, scrape b = Response 200 body /\ reports body (lit "ONLINE_CLIENTS") n /\ (N.of_nat (connected_count b) <= n)%N /\
      ((forall p, In p h -> calm p) -> (forall k t, aget k (b_tasks b) = Some t -> t_connecting t = false) -> n = N.of_nat (connected_count b)).
  Proof.
    exact (fun c h b R => ex_intro _ _ (ex_intro _ _ (conj eq_refl (conj (metrics_reports _)
      (conj (gauge_at_least hash5 hash3 pick c h b R) (fun C T => eq_sym (gauge_exact_partial hash5 hash3 pick c h b R C T))))))).
  Qed.

  (** Without the option there are no metrics, and no answer depends on the clients. *)
  Theorem C58_private : forall n m meth path,
    serve_http openapi_json api_html false n meth path = serve_http openapi_json api_html false m meth path /\
    serve_http openapi_json api_html false n meth "/metrics" = Response 404 [].
  Proof. exact (fun n m meth path => conj eq_refl eq_refl). Qed.

  (** /health answers the same whatever goes on. *)
  Theorem C58_health : forall p n, serve_http openapi_json api_html p n Get "/health" = Response 200 (lit "{""status"":""ok""}").
  Proof. exact (fun p n => eq_refl). Qed.
End C58.
Print Assumptions C58_metrics_partial.
Print Assumptions C58_private.
Print Assumptions C58_health.

(** A scrape reports at most one number. *)
Theorem C58_one_number : forall t name n m, reports t name n -> reports t name m -> n = m.
Proof. exact reports_one. Qed.
Print Assumptions C58_one_number.

(** After a takeover one client is connected and two are reported. *)
Theorem C58_metrics_refuted : exists h b, x_run h b /\ connected_count b = 1%nat /\
  scrape [] [] b = Response 200 (metrics 2) /\ reports (metrics 2) (lit "ONLINE_CLIENTS") 2.
Proof.
  destruct gauge_refuted as (h & b & R & _ & C & G). exists h, b. split; [exact R|]. split; [exact C|].
  split; [unfold scrape; rewrite G; reflexivity|apply metrics_reports].
Qed.
Print Assumptions C58_metrics_refuted.

Example C58_example : exists h b, x_run h b /\ connected_count b = 2%nat /\ scrape [] [] b = Response 200 (lit
"# HELP ONLINE_CLIENTS Count of online clients
# TYPE ONLINE_CLIENTS gauge
ONLINE_CLIENTS 2
").
Proof. run_of (x_a true :: x_up 0 ++ [x_c3 false "b" true 30 None] ++ x_up 1). split; vm_compute; reflexivity. Qed.
