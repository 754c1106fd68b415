(** The generators: certificates, and the outputs they prove. *)
From Coq Require Import String ZArith List Bool.
From Coq Require Import Init.Byte.
From Verif Require Import Prelude Fields PallasCurve PallasLaws HashToCurve HashToCurveFacts HashCert Constants.
Import ListNotations.
Open Scope Z_scope.

Definition cert_q_note : h2c_cert := mk_h2c_cert
  (mk_swu_cert 0x24134851ab7f011cf4473c38a329f68dfd2a0e5e8f31addca93ec5bc423c00a0 (Some 0x1f5f86e47bc2ffa26d81d6a2d58ecaa4988e0c1dee52d1849dad2f1363c1cbc1) 0x1be3ea6d86549d14311f6ee34fc45b67ecd3b5dd8e315db231e2e073b97a3810)
  (mk_swu_cert 0x24c058a43bb2ddd653d8f8383b970d51ce5a206d5aa3eae9e06b21cc7214f976 (Some 0x23aa078cac193bf921e22fa96bfa5003fa8cba1393533925b1a7167509b883dd) 0x232651270dd0574c719c8a91de3b6978c661467e27fcf399309afdecda1eefba)
  0x85173c0381e28ac2b46db19d05d1dde5d934da35ce44bb563c0e22b857a2c4d 0xe7b7db30bb8be32948ddfaaae4d0df5f98308bd44dfb7ae2f6f52a0de54e895.

Definition cert_q_ivk : h2c_cert := mk_h2c_cert
  (mk_swu_cert 0xfe99c474526b4f070c5212e1514909e17317a7b52c7b106f8fd84e6084df8b2 (Some 0x2ff6887b1bade9e93b8ac2c4ca5e263ffdf1f98f5aa172e4b50a97439f6fbdd1) 0x26a6fcc94c6a026c1e910ee388750a7d2546898be5b739acfe45931a07dc5746)
  (mk_swu_cert 0x17f8a3e4028a0d9aa5d0642598baddcb4979634b06ec0e5d56d23cf17e5618c4 (Some 0x13e2b63be38ac950c7ebe2b0a6428829a22fd68ca0323a3e3a208ecd59cd432a) 0x282a27da699b851508e24b00753bf4b74ab9e02c1845bd7a41eaf268c71cdf97)
  0x1aa6452c0dcadfb921ea1d840204cec6b9a1010ad9eae8dd65f167927aff906f 0xf1fccdc58b552a98d59eccfe2818e30c577a6cca1856949103b4c7c33ce4a8a.

Definition cert_q_merkle : h2c_cert := mk_h2c_cert
  (mk_swu_cert 0x3a5132e7511ed8b7e561f3afd06c73556809dda52ac3fa74eba2b1cfc6ee3dc6 (Some 0x34835e0a5ac58f80b36e4b091d5acefb5244459fd8ea4887dc9906e581e0e22d) 0x211119b439beb94c0d75759f5f20110b9f76f20d7b1cf6be647745eaaa943375)
  (mk_swu_cert 0x1b8003a4ab7f2a698d516546d01b867313294bc7262d44ccca3e317117832b None 0x1c5cf91574c8e8ade2f5959894caf3cfb10d1f4102842f793b7645ceb8003009)
  0x6aa5648f7909d3cdf9cf54589c314650ef9239666f4fc728d7c99b0f8994ed7 0x25f440169df742732d0f6db71b1c51f59cfae36c199552001f555b5f35d9a2ad.

Definition cert_r_ivk : h2c_cert := mk_h2c_cert
  (mk_swu_cert 0xa9d03db3d3cc62849cb55a4581d40a818b738b436f6b54191c9066ff7ea7dd4 None 0x30f9d2ab63f7f6b579d6ed4f3ecf19554eef985f1c5a711b1f982848aae65acc)
  (mk_swu_cert 0x35f8383e759c9e222d7fd019446d52d639d40eb83e37aec661311bee1567c28 None 0x2a49c00309705d2c9eb2de49ff0f4e5107473a35fa2de703e49935ef6ae50f48)
  0x83a53feb6f739a1873d1bcb40c101578c6c49d0773ee167498104ae1ea2207c 0x3225409b43246a1ca4c755b1c60c508ed700b98c1cd4788f2cfab870593295b.

Definition cert_r_note : h2c_cert := mk_h2c_cert
  (mk_swu_cert 0x1000cc584900a650b766d9f9a205c4416eda3e3e6386de882c3723a4eb428c7 None 0x33705f879835001f61d73fae3bd2e51c8ba0ac14a9420cc42523d5b57c57e0b6)
  (mk_swu_cert 0x3f5fcd655f6ddbf5c92300fa5675b08299e08c735e9f20e3c14e80633e8b22c7 (Some 0x1723e389b81367b08c00d1ef6622001443bcd04dec6066e38930d5526a5ecc04) 0x2a8ba826d71d16119c9643fc6a7da8c17338a5b4500549c2e5b63781214d0216)
  0x3c9a1e59b23446c089955ec2bac4a3aac2e396853106118dba9e94cb7270e2ba 0x2e681c8e4fdc936258d77b0b2206f7bc9a2416985cd88700bc55c97b9888fcf8.

Definition cert_k_nf : h2c_cert := mk_h2c_cert
  (mk_swu_cert 0x39c6bf26b7d2a2dc4e18c74e3da10fa2f16a7307c857da81fa170d33cd7e868a (Some 0x3fccd4abf533bc4c3accbc42b489caa7f8b303842bfc0900660c6570ca515c26) 0x32a43103acd6e7019c04e13b54938d99ca353d7273f98852c7f56bad5356896c)
  (mk_swu_cert 0x245f7ea26646cdb57117f41cad4012392db91230760b6760f6d1c4cf5daad6e7 None 0x34c6d5572f6ef700766adeb3c329042014ccf469ef3aa2826c2e126a14ccdda3)
  0x1394a3d53b9d0c1c976bd1a611d97c934c9ba423dc6be048002b0f525409a8eb 0xccc845b13a308755e10998c149772eb8244ff4c55da737a48a70809258d8311.

Definition cert_g_auth : h2c_cert := mk_h2c_cert
  (mk_swu_cert 0x174616a9a29c12c062a2ff68db03e63331c6bf88a0fed3757ce7822aeae20d8e (Some 0x53d3b163eb70c4a599fc8368ec0343c8a8a251d465a9dd4b0d2a5fada0448c) 0xfbbaa3e49348f4afb424fa22423826840ed15e7f545aca98f93980cd00a8548)
  (mk_swu_cert 0x3454df0657f6395dc075a3996d3a5022b519eacedcfeb9ec0abd6e8f4afd10fb None 0x3916b1b88924e5cadb4323af110758f64d633e7e9fcb92c7c9b100d6d0d0428c)
  0x5b413fb595e14635c3655444cc8c4b5c5dde0c8b51367de424eef6cc0b4c22f 0x1605a30af3048c857c42b6636a752169d3d86c92fc815ceed4103720bb099e21.

Definition cert_r_cv : h2c_cert := mk_h2c_cert
  (mk_swu_cert 0x1816941fa1f3b1bd071acce7c62e15ccd2c6e377b29bb3195e3ee019cf030dc5 (Some 0x545283a818764adc40d0d5cf510b7256f1a69d087cdcc9d20713e923e1effab) 0x22989e7068407caafa2c929a5243768a5fb5f2f810660b76a0f289cded0b588)
  (mk_swu_cert 0x28fd99e8851fb680a8e409cb1f5e4db269acda26b8ea1231c7339d931745e89e None 0xe3646094f6fca460f20bb7341ddad84c4548ade4a023de1018345ba06efa6d8)
  0x33f630faf8074a1387fd37cb5868da37f0f122349055c42463aae7ea2b4df4d7 0x2e1a4b2101ea50fab9a4452b1da5fe7f1631da8db8db9901c2bb0ff325ce7652.

Definition cert_v_cv : h2c_cert := mk_h2c_cert
  (mk_swu_cert 0x1587330dd56fe7800829669dc2e247d13681e76a2c177024f425cdbebc56ee35 None 0x3d36d8441a6e301d2f4e10224145bab2571017ade001ec2616303e2b6dad1a85)
  (mk_swu_cert 0xe6d3ce30a544eb85e6e8750198aa911a5a7cd2ed4949775a06895924294faf0 (Some 0x27adc9dbc61cce5ab20bedf8755b8f79e6bb86e1fb494cbf6d38827124f4dbfb) 0x384f59697507f4a51bb33c8edd93cfb9ae2606cc74c46e6266920cf444ce89d6)
  0x33d74f62edd818c00d717895330a37cc647c0145e6daa2856f5f2a1959f5d54 0x2115e13157b95f2c8f4a68df7c5194992c6968a185dfa4c2cac9088c34daf29c.

Definition cert_gd : h2c_cert := mk_h2c_cert
  (mk_swu_cert 0x3faf67f030c1ef441e6a83e0b0fbe3531d30827097519393a5d20092f0ed5272 None 0x1372771c099a30a38564db105986dd3688f9ff0c7bce2d3678af67873ef791b7)
  (mk_swu_cert 0x31ca824993bdea294b19ebcfb3bb9a12d151f020890628ad8ba25aa4bb4c198f None 0x2c302c1b221f5fa210ad950f7c11b48003d2bdd6855ff4d885c5de2ac010118d)
  0x1bb1bbd38d5b65499c0280e2f9f9bdc85e0e014e2142c46a279bf2885b28a2e8 0x2dc277136d2f4abece5fc56a4e9dfceb5ff16a9816ddfec6acb2a5d806ec20ad.

Definition point_gd : Z * Z := (0x17cf08060ffcae7d2e174cbfe983307534e3d1d89136272b666ad580e5d3903f, 0x17b4225bc98e7bc2ad8cd15f9ae879a0d6e8cea3c590ca74580f66afa7b11fbd).

Definition gen_inputs : list (string * string * h2c_cert * (Z * Z)) :=
  [("z.cash:SinsemillaQ", "z.cash:Orchard-NoteCommit-M", cert_q_note, q_note_commit_m);
   ("z.cash:SinsemillaQ", "z.cash:Orchard-CommitIvk-M", cert_q_ivk, q_commit_ivk_m);
   ("z.cash:SinsemillaQ", "z.cash:Orchard-MerkleCRH", cert_q_merkle, q_merkle_crh);
   ("z.cash:Orchard-CommitIvk-r", "", cert_r_ivk, gen_commit_ivk_r);
   ("z.cash:Orchard-NoteCommit-r", "", cert_r_note, gen_note_commit_r);
   ("z.cash:Orchard", "K", cert_k_nf, gen_nullifier_k);
   ("z.cash:Orchard", "G", cert_g_auth, gen_spend_auth_g);
   ("z.cash:Orchard-cv", "r", cert_r_cv, gen_value_commit_r);
   ("z.cash:Orchard-cv", "v", cert_v_cv, gen_value_commit_v);
   ("z.cash:Orchard-gd", "", cert_gd, point_gd)]%string.

Definition gen_check (g : string * string * h2c_cert * (Z * Z)) : bool :=
  let '(dom, msg, c, (x, y)) := g in
  match fast_h2c (bytes_of_string dom) (bytes_of_string msg) c swu_c with
  | Some (x', y') => (x =? x') && (y =? y')
  | None => false
  end.
Lemma gen_check_ok : forallb gen_check gen_inputs = true.
Proof. vm_compute. reflexivity. Qed.

Lemma swu_c_div : fdiv (fopp iso_b) iso_a = swu_c.
Proof.
  pose proof swu_c_ok as H. apply andb_true_iff in H as [H H5]. apply andb_true_iff in H as [H H4].
  apply andb_true_iff in H as [H H3]. apply andb_true_iff in H as [H1 H2].
  apply Z.eqb_eq in H1. apply Z.ltb_lt in H2, H3, H5. apply Z.leb_le in H4.
  apply fdiv_unique; [split; assumption|split; assumption|exact H1].
Qed.

#[local] Opaque h2c_checked hash_to_curve_coords swu_c bytes_of_string.
Lemma gen_one : forall dom msg c p, gen_check (dom, msg, c, p) = true ->
  hash_to_curve_coords (bytes_of_string dom) (bytes_of_string msg) = Some p.
Proof.
  intros dom msg c [x y] H. unfold gen_check in H.
  rewrite fast_h2c_ok in H. destruct (h2c_checked (bytes_of_string dom) (bytes_of_string msg) c swu_c) as [[x' y']|] eqn:E; [|discriminate H].
  apply andb_true_iff in H as [H1 H2]. apply Z.eqb_eq in H1, H2. subst x' y'.
  exact (h2c_checked_sound _ _ c swu_c _ swu_c_div E).
Qed.

Lemma generators : forall dom msg c p, In (dom, msg, c, p) gen_inputs ->
  hash_to_curve_coords (bytes_of_string dom) (bytes_of_string msg) = Some p.
Proof. intros dom msg c p H. apply (gen_one dom msg c). exact (proj1 (forallb_forall _ _) gen_check_ok _ H). Qed.
