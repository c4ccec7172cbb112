(** * GoldenGithub: the cases of github/github_test.go run through the model (generated from the test file).

    The client of the test gives the same answer to every request; the times are taken for good. *)
From Coq Require Import Strings.String Strings.Byte List NArith Bool.
From Verif Require Import Base Utf8 Hkp Github GhJson GhTime.
Import ListNotations.
Local Open Scope N_scope.

Definition lines (nl : bytes) (l : list string) : bytes := join nl (map str l).

(** inputText1, github_test.go 21-52. *)
Definition input1 : bytes := lines [x0a]
  ["-----BEGIN PGP PUBLIC KEY BLOCK-----";
   "Version: SKS 1.1.6";
   "Comment: Hostname: sks.pod02.fleetstreetops.com";
   "";
   "mQENBEr24dcBCADQeCxUo1pNF33ytHuzLn4vK9Z8LWXCUoZsQAZ9+cMKAzbQ9ncO+LfMleDz";
   "RpjsBxYWDaTnn6a8OySveDcw9/CZ9Wu0ND0+uHErdNk5qh+z81x15sOAfN9xj4pUm0iH092Z";
   "wuILrLjWWqgKMZYmB8HKaHXDkQmSfQmhx7oyZ4tWHfMN/VqBWLyUt0RaU0X+s4zLrdJSsTaf";
   "ECZRo/2OJecpyBzLBc45Tzv3RJAXTyv31MLDYn38bS0EiShRoqaGIZthC7ZnX9EoaS2trg1K";
   "uZtv6NeScRU4TqS21q/kYnE6HBnAMg7mI7dtFbg8x20TB2rTA5v8o/8cqZ3MLQukqjZ1ABEB";
   "AAG0GUFsaWNlIDxhbGljZUBleGFtcGxlLmNvbT6IjAQQFggANBYhBDvMx8/SWX5TRN2WSnKb";
   "Uj0R86jXBQJe8BASFhSAAAAAAA0AAHJlbUBnbnVwZy5vcmcACgkQcptSPRHzqNexFQEA3wFC";
   "8PN9jOyFJak06/OWplZpQCMvBEBKJl+hJZYLNdIBAPEZay004L/HD0CA6O8l9emQyDCglYkT";
   "y2AIzzpeFvABiQE4BBMBAgAiBQJK9uHXAhsDBgsJCAcDAgYVCAIJCgsEFgIDAQIeAQIXgAAK";
   "CRBEzmkA4rMHpJNiB/0bWxus4CYj1fdRmRTIJmSVNiuqrohX3c1DZry8j34v5fEFLsAwHPL8";
   "54uw2FhQVgjhZN75vKPzghsZoUh7dbtC+KZuACnAqmsHV/Nx9D0Ac7x8tVEvt90glG9jkp8Q";
   "SMLA8SElUmfPQoXvjugc93ZdZs7A6J8Nxxlcu9zsrKQqH+60aTIUs03F5D/PaQFeZOCFkoOt";
   "dj5QTV8Kwkow4nnMdQ55dJCnD1Ze7RFZmMEqd+jAQ6N3Vg41f6+qsmBew+t7aqC30tWpVw+s";
   "6XSdIkbFfLN8yPiRARn1r8U2ZzsLDs1O6ftdcBNaQTOnl/4zXNu+R1skFwWfDML/xkcW3pVx";
   "uQENBEr24dcBCADZ+26/F9bLQ92XPiCeCwPG2rwzg2o4a5kHkpX9lR6HLwDKbHpXZIjyEIFR";
   "eu1oefIGPmnlpdVuCh8ulaE7574vU3fEg6B/QoSTVz6mAKeLuMjx0qth02Gots/U/sixx/Nn";
   "V5epDVuR/exH6egunpzDvEg+UD6Rkib86LIL8CmQXq38ZZVfd/Px0rObF7YyUbWUidqKW6+l";
   "2lj/X6svQdx3B65PWGwBuoxv3j4eLP7zJouyGf7h+2H9v3eIcPTyTOgiT50YwztdalMFllkP";
   "71Lf3F/6L5zo4yZ4/YMyCkHV+2LevwjnDpjGSHyXQ603WPjQtOwybcgCkV0N+KuYwvinABEB";
   "AAGJAR8EGAECAAkFAkr24dcCGwwACgkQRM5pAOKzB6Rm8wgAyw09KTy98Y1lMvuS4sr+IHPt";
   "RCLg8/JKHfNut8N+W7z9B+7q1bB9XDg1KxtYhuEtwVr393xfY8v9f1saUUt4bh8hwrciU5gt";
   "cGP7MhgQT5xztAkM1JChtT2+SKRF4NU9El4oUao4lbTU/jB8ZSF2jJAhUnpcHgCSzPzsqyye";
   "XMGK/CQPmGRWr96c9L2efBZvV0aLrziI/ftIl+TJ68P9oV0RwjoA6z6dWgwMfaZ8GN6MsuXQ";
   "KH/KNBqYms9+E0UXWd70hQZaKKV3Tch/ldnAVMSwMaKmkD6zFvULJqkcP+QNWIqxLqc7He8/";
   "P1FRChSHTwsazDVjP0AKzttqhGYxNw==";
   "=QFnp";
   "-----END PGP PUBLIC KEY BLOCK-----";
   ""]%string.

(** inputText2, github_test.go 53-110. *)
Definition input2 : bytes := lines [x0a]
  ["[";
   "  {";
   "    ""id"": 1070011,";
   "    ""primary_key_id"": null,";
   "    ""key_id"": ""3B460BA9A59048C9"",";
   "    ""raw_key"": ""-----BEGIN PGP PUBLIC KEY BLOCK-----\r\n\r\nmDMEX5e8IxYJKwYBBAHaRw8BAQdAsbKSTsqzMQSUdWv/UQBfYf+HD9/+dzCT+zVN\r\nIvZRQ/e0L1NwaWVnZWwgKGdpdGh1YikgPHNwaWVnZWwuaW0uc3BpZWdlbEBnbWFp\r\nbC5jb20+iJAEExYIADgWIQRK8EwUs6FchRaOGmc7RguppZBIyQUCX5e8IwIbAwUL\r\nCQgHAgYVCgkICwIEFgIDAQIeAQIXgAAKCRA7RguppZBIyVTWAPoChzM/FBkpqBVl\r\nUv2v3cE3UIfPENm5qWegUmmBg3yTLgD+MXyI6zter+DDUT9e0UWeaOZrsJvCpBUh\r\n9eLxUMpiKg64OARfl7wjEgorBgEEAZdVAQUBAQdALSF4rszFFAhisXD/7ZKytW1M\r\nLSWGPxW4sLNezkhKfX0DAQgHiHgEGBYIACAWIQRK8EwUs6FchRaOGmc7RguppZBI\r\nyQUCX5e8IwIbDAAKCRA7RguppZBIyUzLAQCDNMwKtq1zR2KHm9F0Fvp66vv2grX1\r\nj0TRb5sEayG9YQEA5ap7JltKc4iVThzu7bY1D+sZ3KbXetecf+QQv6YrwAE=\r\n=n3Jr\r\n-----END PGP PUBLIC KEY BLOCK-----\r\n"",";
   "    ""public_key"": ""xjMEX5e8IxYJKwYBBAHaRw8BAQdAsbKSTsqzMQSUdWv/UQBfYf+HD9/+dzCT+zVNIvZRQ/c="",";
   "    ""emails"": [";
   "      {";
   "        ""email"": ""usrename@example.com"",";
   "        ""verified"": true";
   "      }";
   "    ],";
   "    ""subkeys"": [";
   "      {";
   "        ""id"": 1070012,";
   "        ""primary_key_id"": 1070011,";
   "        ""key_id"": ""8EF2411709BAC3A4"",";
   "        ""raw_key"": null,";
   "        ""public_key"": ""zjgEX5e8IxIKKwYBBAGXVQEFAQEHQC0heK7MxRQIYrFw/+2SsrVtTC0lhj8VuLCzXs5ISn19AwEIBw=="",";
   "        ""emails"": [";
   "";
   "        ],";
   "        ""subkeys"": [";
   "";
   "        ],";
   "        ""can_sign"": false,";
   "        ""can_encrypt_comms"": true,";
   "        ""can_encrypt_storage"": true,";
   "        ""can_certify"": false,";
   "        ""created_at"": ""2020-11-09T06:29:59.000Z"",";
   "        ""expires_at"": null";
   "      }";
   "    ],";
   "    ""can_sign"": true,";
   "    ""can_encrypt_comms"": false,";
   "    ""can_encrypt_storage"": false,";
   "    ""can_certify"": true,";
   "    ""created_at"": ""2020-11-09T06:29:59.000Z"",";
   "    ""expires_at"": null";
   "  },";
   "  {";
   "    ""id"": 1043333,";
   "    ""primary_key_id"": null,";
   "    ""key_id"": ""B4DA3BAE7E20B81C"",";
   "    ""raw_key"": null,";
   "    ""public_key"": null,";
   "    ""emails"": [";
   "    ],";
   "    ""subkeys"": [";
   "    ],";
   "    ""can_sign"": true,";
   "    ""can_encrypt_comms"": false,";
   "    ""can_encrypt_storage"": false,";
   "    ""can_certify"": true,";
   "    ""created_at"": ""2020-10-13T22:07:23.000Z"",";
   "    ""expires_at"": null";
   "  }";
   "]";
   ""]%string.

(** The raw key of the first entry, its \r\n as octets. *)
Definition raw1 : bytes := lines [x0d; x0a]
  ["-----BEGIN PGP PUBLIC KEY BLOCK-----";
   "";
   "mDMEX5e8IxYJKwYBBAHaRw8BAQdAsbKSTsqzMQSUdWv/UQBfYf+HD9/+dzCT+zVN";
   "IvZRQ/e0L1NwaWVnZWwgKGdpdGh1YikgPHNwaWVnZWwuaW0uc3BpZWdlbEBnbWFp";
   "bC5jb20+iJAEExYIADgWIQRK8EwUs6FchRaOGmc7RguppZBIyQUCX5e8IwIbAwUL";
   "CQgHAgYVCgkICwIEFgIDAQIeAQIXgAAKCRA7RguppZBIyVTWAPoChzM/FBkpqBVl";
   "Uv2v3cE3UIfPENm5qWegUmmBg3yTLgD+MXyI6zter+DDUT9e0UWeaOZrsJvCpBUh";
   "9eLxUMpiKg64OARfl7wjEgorBgEEAZdVAQUBAQdALSF4rszFFAhisXD/7ZKytW1M";
   "LSWGPxW4sLNezkhKfX0DAQgHiHgEGBYIACAWIQRK8EwUs6FchRaOGmc7RguppZBI";
   "yQUCX5e8IwIbDAAKCRA7RguppZBIyUzLAQCDNMwKtq1zR2KHm9F0Fvp66vv2grX1";
   "j0TRb5sEayG9YQEA5ap7JltKc4iVThzu7bY1D+sZ3KbXetecf+QQv6YrwAE=";
   "=n3Jr";
   "-----END PGP PUBLIC KEY BLOCK-----";
   ""]%string.

Definition client1 : gh_env := mkGh (fun _ => GErr) (fun _ => Some input1) (fun n => n) (fun _ _ => false).
Definition client2 : gh_env := gh_bodies time_ok (fun _ => Some (input2, true)) client1.

(** TestGet, github_test.go 153-169. *)
Example github_get : fst (get_key client1 (str "username") [] 1) = ROk input1.
Proof. vm_compute. reflexivity. Qed.

(** TestGetKey, github_test.go 171-192. *)
Example github_key1 : fst (get_key client2 (str "username") (str "3B460BA9A59048C9") 2) = ROk raw1.
Proof. vm_compute. reflexivity. Qed.
Example github_key2 : fst (get_key client2 (str "username") (str "0x3B460BA9A59048C9") 2) = ROk raw1.
Proof. vm_compute. reflexivity. Qed.
Example github_key3 : fst (get_key client2 (str "username") (str "B4DA3BAE7E20B81C") 2) = RErr ENoKey.
Proof. vm_compute. reflexivity. Qed.
Example github_key4 : fst (get_key client2 (str "username") (str "0x00") 2) = RErr ENoKey.
Proof. vm_compute. reflexivity. Qed.
