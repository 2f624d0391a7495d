(** Short corollaries for the theorems about handshake messages (C60). *)
From Verif.Lib Require Import Base.
From Verif Require Import CodecModel CodecSpec CodecLemmas AttestModel TlsModel TlsSpec TlsLemmas TlsExtractLemmas HandshakeModel HandshakeSpec HandshakeLemmas HandshakeWriteLemmas HandshakeViewLemmas.

Lemma C60_total_lemma dns_ok tls13 l : bytes_ok l -> hs_parse dns_ok tls13 l <> Panic.
Proof. intros Hl E. pose proof (good_parse dns_ok tls13 l Hl) as H. by rewrite E in H. Qed.
Lemma C60_canonical_lemma dns_ok tls13 l h rest : bytes_ok l -> hs_parse dns_ok tls13 l = Ok (h, rest) -> l = hs_encode h ++ rest.
Proof. intros Hl E. pose proof (good_parse dns_ok tls13 l Hl) as H. by rewrite E in H. Qed.
Lemma real_sequenced_lemma sha256 dns_ok ec_curve b t d :
  builder_bytes_ok b -> tls_build sha256 (real_parse_body dns_ok) ec_curve b = Ok t -> well_sequenced (tls_dir t d).
Proof. intros Hb. apply (C22_sequenced_lemma sha256); [done|apply real_finished_is_20]. Qed.
