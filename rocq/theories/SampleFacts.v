(** Widths of sample codecs. *)
From Verif Require Import BaseFacts Platform Fp SegyTypes SegyCodec CodecFacts.

Definition supported : list Z := [1; 2; 3; 5; 6; 7; 8; 9; 10; 11; 12; 15; 16].

(** Case analysis over format codes by the tests the library makes. *)
Lemma fmt_cases (fmt : Z) :
  In fmt supported \/
  ((forall p e, sample_reader p e fmt = Throw ESedaman) /\
   (forall p e, sample_writer p e fmt = Throw ESedaman)).
Proof.
  unfold supported.
  destruct (in_dec Z.eq_dec fmt [1; 2; 3; 5; 6; 7; 8; 9; 10; 11; 12; 15; 16]) as [H|H]; [left; exact H|right].
  cbn [In] in H.
  destruct fmt as [|q|q]; try (split; reflexivity).
  do 5 (destruct q as [q|q|]; try (split; intros; reflexivity); try (exfalso; lia)).
Qed.

Lemma pmap_skip {A B} (f : A -> B) (p : P A) c n :
  (exists v, p c = Ok (v, skipn n c)) -> exists v, pmap f p c = Ok (v, skipn n c).
Proof. intros (v & E). erewrite pmap_ok by exact E. eauto. Qed.

Lemma sample_reader_width p e fmt r :
  sample_reader p e fmt = Ok r ->
  exists n, bytes_per_sample fmt = Some (Z.of_nat n) /\ (1 <= n)%nat /\
    forall c, (n <= List.length c)%nat -> exists v, r c = Ok (v, skipn n c).
Proof.
  intros H. destruct (fmt_cases fmt) as [Hin|[Hr _]]; [|rewrite Hr in H; discriminate].
  unfold supported in Hin. cbn [In] in Hin.
  repeat (destruct Hin as [<-|Hin]); try contradiction;
    cbn [sample_reader bytes_per_sample] in *; injection H as <-;
    first [ exists 1%nat; split; [reflexivity|]; split; [lia|]
          | exists 2%nat; split; [reflexivity|]; split; [lia|]
          | exists 3%nat; split; [reflexivity|]; split; [lia|]
          | exists 4%nat; split; [reflexivity|]; split; [lia|]
          | exists 8%nat; split; [reflexivity|]; split; [lia|] ];
    intros c Hc;
    first [ apply rd_u_ok; exact Hc | apply pmap_skip; 
      first [apply rd_u_ok; exact Hc | apply rd_i_ok; exact Hc
            | apply rd_u24_ok; exact Hc | apply rd_i24_ok; exact Hc] ].
Qed.

Lemma sample_writer_width p e fmt w :
  sample_writer p e fmt = Ok w ->
  exists n, o_bytes_per_sample fmt = Some (Z.of_nat n) /\ (1 <= n)%nat /\
    forall d b, w d = Ok b -> List.length b = n /\ bytes b.
Proof.
  intros H. destruct (fmt_cases fmt) as [Hin|[_ Hr]]; [|rewrite Hr in H; discriminate].
  unfold supported in Hin. cbn [In] in Hin.
  repeat (destruct Hin as [<-|Hin]); try contradiction;
    cbn [sample_writer o_bytes_per_sample] in *; injection H as <-;
    first [ exists 1%nat; split; [reflexivity|]; split; [lia|]
          | exists 2%nat; split; [reflexivity|]; split; [lia|]
          | exists 3%nat; split; [reflexivity|]; split; [lia|]
          | exists 4%nat; split; [reflexivity|]; split; [lia|]
          | exists 8%nat; split; [reflexivity|]; split; [lia|] ];
    intros d b Hb; unfold wr_ibm, wr_f32, wr_f64 in *;
    try (apply bind_ok in Hb as (u & _ & Hb)); injection Hb as <-;
    split; first [apply wr_length | apply wr_bytes | apply wr24_length | apply wr24_bytes].
Qed.

Lemma bps_agree fmt : In fmt supported ->
  exists n, bytes_per_sample fmt = Some (Z.of_nat n) /\
            o_bytes_per_sample fmt = Some (Z.of_nat n) /\ (1 <= n <= 8)%nat.
Proof.
  unfold supported. cbn [In]. intros H.
  repeat (destruct H as [<-|H]); try contradiction; cbn;
    first [ exists 1%nat; split; [reflexivity|]; split; [reflexivity|]; lia
          | exists 2%nat; split; [reflexivity|]; split; [reflexivity|]; lia
          | exists 3%nat; split; [reflexivity|]; split; [reflexivity|]; lia
          | exists 4%nat; split; [reflexivity|]; split; [reflexivity|]; lia
          | exists 8%nat; split; [reflexivity|]; split; [reflexivity|]; lia ].
Qed.

Lemma supported_ok p e fmt : In fmt supported ->
  is_ok (sample_reader p e fmt) = true /\ is_ok (sample_writer p e fmt) = true.
Proof.
  unfold supported. cbn [In]. intros H.
  repeat (destruct H as [<-|H]); try contradiction; split; reflexivity.
Qed.
