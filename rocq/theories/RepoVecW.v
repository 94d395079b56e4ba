(** Generated by tests/vectors.py from the test vectors of src/validation.rs:591-982 and 1224: the records, and for
    every RRSIG among them the key, the octets it is over (computed and checked by that script) and the signature. *)
From Verif Require Import Base NameM WireM RRM ValM.
From Coq Require Import String.
Local Open Scope N_scope.

Definition r_root_dnskey : list RR :=
  [RR_DnsKey {| dk_name := bs "."; dk_flags := 256; dk_protocol := 3; dk_alg := 8; dk_pubkey := [3;1;0;1;233;237;9;194;4;157;210;225;217;4;138;250;145;197;171;243;228;40;44;34;163;27;123;229;222;234;52;229;46;76;243;40;208;87;45;123;243;91;192;51;219;161;203;219;103;247;141;111;148;85;255;20;29;106;150;137;1;36;63;160;50;236;171;48;244;31;95;137;144;115;110;184;167;54;36;187;105;51;24;56;130;84;132;224;41;209;93;61;130;156;84;214;228;140;14;68;66;254;205;234;153;31;46;188;57;124;185;158;5;185;40;2;219;122;244;88;70;15;234;218;161;94;205;27;66;73;13;36;158;108;143;194;1;108;130;21;88;44;172;34;215;94;168;199;1;20;231;38;122;91;185;233;88;204;109;229;159;144;179;199;98;60;213;171;75;150;151;46;2;109;173;101;6;32;139;133;126;230;112;93;140;226;25;19;255;207;122;53;17;243;40;247;54;84;215;210;139;162;153;40;45;117;251;46;207;221;136;37;221;72;71;73;93;59;69;3;204;52;252;226;144;190;43;137;121;183;202;177;202;4;148;36;236;194;233;21;103;85;87;230;6;218;20;74;54;197;104;71;39;213;40;235;124;24;105;57] |};
   RR_DnsKey {| dk_name := bs "."; dk_flags := 257; dk_protocol := 3; dk_alg := 8; dk_pubkey := [3;1;0;1;172;255;180;9;188;201;57;248;49;247;161;229;236;136;247;165;146;85;236;83;4;11;228;50;2;115;144;164;206;137;109;111;144;134;243;197;225;119;251;254;17;129;99;170;236;122;241;70;44;71;148;89;68;196;226;192;38;190;94;152;187;205;237;37;151;130;114;225;227;224;121;197;9;77;87;63;14;131;201;47;2;179;45;53;19;177;85;11;130;105;41;200;13;208;249;44;172;150;109;23;118;159;213;134;123;100;124;63;56;2;154;189;196;129;82;235;143;32;113;89;236;197;210;50;199;193;83;124;121;244;183;172;40;255;17;104;47;33;104;27;246;214;171;165;85;3;43;246;249;240;54;190;178;170;165;179;119;141;110;235;251;166;191;158;161;145;190;74;176;202;234;117;158;47;119;58;31;144;41;199;62;203;141;87;53;185;50;29;176;133;241;184;226;216;3;143;226;148;25;146;84;140;238;13;103;221;69;71;225;29;214;58;249;201;252;28;84;102;251;104;76;240;9;215;25;124;44;247;158;121;42;181;1;230;168;161;202;81;154;242;203;155;95;99;103;233;76;13;71;80;36;81;53;123;225;181] |};
   RR_RRSig {| rs_name := bs "."; rs_ty := 48; rs_alg := 8; rs_labels := 0; rs_orig_ttl := 172800; rs_expiration := 1710201600; rs_inception := 1708387200; rs_key_tag := 20326; rs_key_name := bs "."; rs_signature := [24;136;48;157;212;75;94;11;123;25;127;201;52;74;146;190;150;48;230;40;250;18;7;144;138;247;66;254;25;141;54;227;157;216;192;144;69;44;89;199;96;221;45;149;40;43;75;102;159;101;230;57;221;47;96;253;58;14;9;8;49;74;72;93;192;108;183;15;212;155;158;86;66;27;193;144;20;207;34;27;129;221;75;202;96;155;45;154;175;188;132;81;214;84;156;10;29;56;61;198;237;252;36;14;55;86;0;149;216;6;243;186;182;243;52;226;210;130;175;171;12;247;165;69;124;233;46;190;90;96;77;242;248;75;175;47;226;57;130;235;38;224;195;26;142;122;121;75;232;168;88;226;254;201;99;167;64;78;151;42;128;230;150;183;220;78;182;31;69;44;81;180;151;176;62;97;158;9;179;93;192;69;1;58;130;212;85;217;2;141;1;184;184;92;164;112;162;248;209;198;60;16;232;85;152;205;228;92;12;174;62;227;94;217;124;245;66;178;28;85;167;127;83;129;67;158;207;161;119;207;150;250;197;167;175;196;0;180;133;5;79;154;65;141;122;40;25;45;54;155;167;140;117;39;148;234] |}].
Definition r_com_dnskey : list RR :=
  [RR_DS {| ds_name := bs "com."; ds_key_tag := 19718; ds_alg := 13; ds_digest_type := 2; ds_digest := [138;203;176;205;40;244;18;80;168;10;73;19;137;66;77;52;21;34;217;70;176;218;12;2;145;242;211;215;113;215;128;90] |};
   RR_RRSig {| rs_name := bs "com."; rs_ty := 43; rs_alg := 8; rs_labels := 1; rs_orig_ttl := 86400; rs_expiration := 1710133200; rs_inception := 1709006400; rs_key_tag := 30903; rs_key_name := bs "."; rs_signature := [88;71;251;80;250;168;186;92;90;111;205;231;87;47;249;215;196;233;101;192;183;162;13;41;105;158;203;106;14;98;58;161;157;152;107;217;156;29;50;67;141;172;219;152;170;7;249;139;233;149;62;177;37;48;98;135;37;113;109;250;78;255;242;30;4;188;215;116;246;192;232;16;224;152;116;213;160;172;142;72;239;166;10;91;182;112;211;198;15;27;47;125;11;87;90;27;133;8;78;4;91;185;74;160;248;20;227;30;105;95;69;169;199;223;237;158;246;188;45;84;117;92;180;186;205;138;110;27;98;222;228;24;172;164;37;25;135;3;50;88;16;3;35;132;209;97;26;45;62;248;97;242;133;78;150;111;32;173;20;125;71;221;80;0;34;51;70;122;61;72;187;6;140;147;160;131;126;120;162;143;190;124;191;251;128;79;246;37;111;0;233;143;50;10;254;146;175;234;33;99;157;178;245;26;171;244;190;147;181;68;61;50;68;139;232;182;128;224;224;108;192;190;220;70;89;165;152;158;246;75;245;16;64;48;27;0;109;26;49;59;108;185;64;213;5;27;185;87;147;129;204;200;206;182;43;137] |};
   RR_DnsKey {| dk_name := bs "com."; dk_flags := 256; dk_protocol := 3; dk_alg := 13; dk_pubkey := [230;47;106;140;152;50;31;239;76;7;62;213;59;110;189;254;202;203;64;31;241;69;25;101;201;74;21;171;202;11;5;155;33;61;238;2;27;48;210;20;105;215;0;205;203;253;3;243;7;213;11;164;155;174;203;184;220;198;96;89;228;70;232;236] |};
   RR_DnsKey {| dk_name := bs "com."; dk_flags := 257; dk_protocol := 3; dk_alg := 13; dk_pubkey := [183;31;4;101;16;29;219;226;191;12;148;85;209;47;161;108;28;218;68;244;191;27;162;85;52;24;173;31;58;169;176;105;115;242;27;132;235;83;44;244;3;94;232;212;131;44;162;109;137;48;106;125;50;86;12;12;176;18;157;69;10;193;8;53] |};
   RR_RRSig {| rs_name := bs "com."; rs_ty := 48; rs_alg := 13; rs_labels := 1; rs_orig_ttl := 86400; rs_expiration := 1710342155; rs_inception := 1709045855; rs_key_tag := 19718; rs_key_name := bs "com."; rs_signature := [148;93;129;246;117;217;159;64;160;202;218;199;31;172;65;208;212;239;107;129;191;105;107;224;255;42;103;75;18;124;249;149;229;189;29;2;227;222;248;200;31;167;119;102;86;205;99;8;10;207;232;61;131;10;161;1;234;197;88;231;27;43;188;156] |}].
Definition r_ninja_dnskey : list RR :=
  [RR_DS {| ds_name := bs "ninja."; ds_key_tag := 46082; ds_alg := 8; ds_digest_type := 2; ds_digest := [200;248;22;167;165;117;189;178;249;151;246;130;170;178;101;59;162;203;94;221;182;155;3;106;48;116;42;51;190;250;241;65] |};
   RR_RRSig {| rs_name := bs "ninja."; rs_ty := 43; rs_alg := 8; rs_labels := 1; rs_orig_ttl := 86400; rs_expiration := 1710133200; rs_inception := 1709006400; rs_key_tag := 30903; rs_key_name := bs "."; rs_signature := [225;242;226;122;76;73;203;91;71;91;123;12;206;99;192;254;46;12;159;164;216;160;33;195;41;183;47;147;123;119;55;162;23;50;64;2;74;5;62;232;254;77;197;35;49;163;149;218;237;130;249;82;225;53;32;32;202;197;233;121;163;149;179;202;248;218;69;0;63;254;22;104;154;60;39;11;58;178;27;101;232;75;165;90;241;197;11;72;224;57;140;229;53;231;115;82;10;250;44;223;216;135;120;153;238;60;131;115;108;192;31;176;167;32;232;134;255;32;57;141;158;154;46;64;94;119;133;12;213;203;238;76;24;185;70;61;70;99;72;238;155;224;98;44;151;34;169;44;109;45;4;178;151;51;154;217;93;17;15;36;41;68;99;226;214;40;235;64;75;88;128;70;167;108;90;100;167;43;22;66;166;9;196;142;105;42;36;27;99;10;235;62;179;160;45;50;215;129;28;129;114;121;188;0;238;133;3;54;210;119;34;109;93;59;150;250;177;74;6;63;200;20;130;122;157;20;66;210;44;71;132;132;166;10;164;239;163;74;187;136;242;15;224;140;210;27;228;47;111;15;0;45;113;42;0;123] |};
   RR_DnsKey {| dk_name := bs "ninja."; dk_flags := 256; dk_protocol := 3; dk_alg := 8; dk_pubkey := [3;1;0;1;190;133;89;237;14;210;172;84;144;15;139;130;17;123;212;227;214;183;69;141;168;22;130;139;126;7;9;94;128;130;60;251;209;19;127;143;188;134;139;124;66;19;19;60;50;76;242;173;181;221;231;38;5;63;133;251;76;33;132;204;142;104;124;179;106;236;101;72;143;217;90;100;237;22;97;47;3;53;208;140;55;186;164;85;86;152;121;29;148;121;225;172;118;242;9;169;21;179;151;41;192;4;2;167;11;53;254;203;153;233;239;177;65;178;87;184;112;2;6;196;145;63;208;94;100;159;173;69] |};
   RR_DnsKey {| dk_name := bs "ninja."; dk_flags := 256; dk_protocol := 3; dk_alg := 8; dk_pubkey := [3;1;0;1;153;100;122;200;96;95;100;61;139;245;248;205;147;28;217;200;138;59;102;183;250;99;162;56;43;152;29;134;240;183;254;55;93;119;92;29;216;237;57;74;214;20;82;100;24;16;86;176;116;25;252;24;52;9;229;6;170;245;6;203;7;119;157;214;57;32;5;254;123;179;231;184;133;37;132;160;220;54;105;237;113;6;241;134;177;254;114;153;142;160;29;215;163;255;122;38;133;99;186;179;241;78;226;68;219;114;53;160;15;180;104;68;156;231;205;95;226;146;132;109;58;120;88;142;230;231;19;103] |};
   RR_DnsKey {| dk_name := bs "ninja."; dk_flags := 257; dk_protocol := 3; dk_alg := 8; dk_pubkey := [3;1;0;1;199;30;76;157;196;146;73;162;123;62;244;47;203;141;86;180;195;172;118;113;92;122;208;28;65;208;212;50;89;13;21;195;198;44;238;75;45;41;172;53;242;215;44;155;50;167;10;2;67;203;208;138;238;188;159;111;30;14;99;217;225;205;254;19;60;69;90;130;67;92;7;128;183;80;1;44;148;47;126;213;182;98;238;200;217;174;136;90;88;153;63;167;141;117;97;254;220;209;29;158;28;23;26;203;2;208;2;88;55;186;97;163;192;166;117;100;39;65;68;112;201;202;9;6;178;152;22;139;95;77;150;64;230;46;27;117;221;6;190;102;65;4;237;50;207;228;71;250;33;243;116;1;113;44;114;10;13;202;75;177;188;32;243;250;49;3;202;211;54;189;226;11;22;247;57;72;230;184;13;218;10;82;141;181;54;169;88;134;140;56;112;236;221;207;176;45;251;60;180;210;46;42;212;154;75;159;120;201;15;246;199;225;14;48;27;63;179;111;232;89;169;76;48;8;70;96;102;87;65;193;79;246;13;5;53;1;63;207;67;152;64;236;173;130;252;146;120;228;172;230;139;169;94;112;130;73] |};
   RR_RRSig {| rs_name := bs "ninja."; rs_ty := 48; rs_alg := 8; rs_labels := 1; rs_orig_ttl := 3600; rs_expiration := 1710689605; rs_inception := 1708871605; rs_key_tag := 46082; rs_key_name := bs "ninja."; rs_signature := [145;140;85;215;63;189;34;76;106;110;189;119;55;239;7;21;101;167;1;71;47;30;74;255;118;105;29;127;109;102;150;37;33;31;135;49;121;128;151;11;166;189;229;127;152;206;54;16;17;8;183;125;79;146;223;142;144;4;50;100;108;86;2;113;174;106;253;60;212;116;78;222;143;80;127;210;228;243;134;3;107;67;57;230;208;238;172;131;160;200;220;123;170;13;246;105;218;134;129;66;109;130;252;126;47;142;71;20;91;220;241;128;163;252;56;221;10;40;186;217;82;230;30;148;102;179;120;100;142;177;200;195;14;89;174;52;192;251;180;120;69;174;98;189;6;40;151;251;203;41;240;41;126;32;78;64;172;255;130;61;123;8;35;227;254;71;100;19;153;58;176;230;139;201;114;29;133;45;19;17;168;41;98;19;52;209;252;139;48;4;141;197;125;232;25;71;200;125;196;157;32;127;32;246;172;58;159;234;92;9;132;61;74;209;164;185;195;24;154;249;184;51;165;18;10;194;33;159;63;206;198;13;140;228;202;1;235;243;116;27;153;148;182;96;109;103;198;89;208;218;184;36;169;49;160;92] |}].
Definition r_mattcorallo_dnskey : list RR :=
  [RR_DS {| ds_name := bs "mattcorallo.com."; ds_key_tag := 25630; ds_alg := 13; ds_digest_type := 2; ds_digest := [220;96;140;166;43;232;155;59;157;177;89;63;154;89;147;13;36;251;167;157;72;110;25;200;138;119;146;113;30;192;7;53] |};
   RR_RRSig {| rs_name := bs "mattcorallo.com."; rs_ty := 43; rs_alg := 13; rs_labels := 2; rs_orig_ttl := 86400; rs_expiration := 1709359258; rs_inception := 1708750258; rs_key_tag := 4534; rs_key_name := bs "com."; rs_signature := [86;166;51;180;222;252;250;13;123;209;3;222;20;234;150;22;69;53;102;178;136;178;119;84;98;61;216;251;204;117;101;29;111;253;129;137;92;180;30;230;169;28;45;104;235;151;251;204;200;40;36;156;45;208;253;216;92;75;102;160;209;174;214;215] |};
   RR_DnsKey {| dk_name := bs "mattcorallo.com."; dk_flags := 257; dk_protocol := 3; dk_alg := 13; dk_pubkey := [240;19;249;212;75;98;187;133;122;112;123;198;9;138;176;54;160;162;167;138;111;28;40;99;18;9;32;27;140;233;116;59;206;245;132;92;76;107;149;254;158;245;132;5;46;183;111;234;17;220;106;93;245;14;79;253;60;216;18;127;103;79;61;12] |};
   RR_DnsKey {| dk_name := bs "mattcorallo.com."; dk_flags := 256; dk_protocol := 3; dk_alg := 13; dk_pubkey := [2;21;37;67;202;164;239;141;119;71;73;184;204;167;211;12;118;255;21;4;101;41;168;62;157;193;151;196;220;83;250;164;243;73;148;219;244;78;72;26;58;61;84;33;41;235;226;12;170;170;100;119;129;171;94;147;125;3;48;239;149;197;61;34] |};
   RR_DnsKey {| dk_name := bs "mattcorallo.com."; dk_flags := 256; dk_protocol := 3; dk_alg := 13; dk_pubkey := [179;94;185;102;155;155;95;125;69;11;96;149;120;133;85;190;115;233;78;114;84;160;227;60;8;107;119;194;78;0;183;19;223;181;134;157;128;143;46;20;206;55;23;132;26;15;174;239;240;31;21;178;25;122;221;250;241;55;157;29;115;142;21;29] |};
   RR_RRSig {| rs_name := bs "mattcorallo.com."; rs_ty := 48; rs_alg := 13; rs_labels := 2; rs_orig_ttl := 604800; rs_expiration := 1710262250; rs_inception := 1709047250; rs_key_tag := 25630; rs_key_name := bs "mattcorallo.com."; rs_signature := [116;194;195;188;213;61;234;111;173;126;10;67;33;3;241;48;18;114;237;61;49;201;144;227;221;108;44;225;190;4;235;232;55;158;222;98;80;183;86;39;193;42;174;63;188;232;162;222;172;229;109;236;161;248;135;246;28;28;253;124;132;119;76;24] |}].
Definition r_mattcorallo_txt_record : list RR :=
  [RR_Txt {| tx_name := bs "matt.user._bitcoin-payment.mattcorallo.com."; tx_data := bs "bitcoin:?b12=lno1qsgqmqvgm96frzdg8m0gc6nzeqffvzsqzrxqy32afmr3jn9ggkwg3egfwch2hy0l6jut6vfd8vpsc3h89l6u3dm4q2d6nuamav3w27xvdmv3lpgklhg7l5teypqz9l53hj7zvuaenh34xqsz2sa967yzqkylfu9xtcd5ymcmfp32h083e805y7jfd236w9afhavqqvl8uyma7x77yun4ehe9pnhu2gekjguexmxpqjcr2j822xr7q34p078gzslf9wpwz5y57alxu99s0z2ql0kfqvwhzycqq45ehh58xnfpuek80hw6spvwrvttjrrq9pphh0dpydh06qqspp5uq4gpyt6n9mwexde44qv7lstzzq60nr40ff38u27un6y53aypmx0p4qruk2tf9mjwqlhxak4znvna5y" |};
   RR_RRSig {| rs_name := bs "matt.user._bitcoin-payment.mattcorallo.com."; rs_ty := 16; rs_alg := 13; rs_labels := 5; rs_orig_ttl := 3600; rs_expiration := 1710182540; rs_inception := 1708967540; rs_key_tag := 47959; rs_key_name := bs "mattcorallo.com."; rs_signature := [191;2;60;244;41;2;205;98;54;35;8;37;221;71;162;74;142;6;41;38;138;10;30;255;19;254;231;19;193;219;111;85;144;189;218;112;116;164;129;234;49;56;159;3;53;4;222;48;116;248;98;238;76;93;238;28;146;254;225;162;41;152;241;178] |}].
Definition r_bitcoin_ninja_dnskey : list RR :=
  [RR_DS {| ds_name := bs "bitcoin.ninja."; ds_key_tag := 63175; ds_alg := 13; ds_digest_type := 2; ds_digest := [213;84;38;125;127;115;11;150;2;191;68;54;244;107;185;103;239;227;196;32;44;167;240;130;242;213;221;36;223;78;189;237] |};
   RR_RRSig {| rs_name := bs "bitcoin.ninja."; rs_ty := 43; rs_alg := 8; rs_labels := 2; rs_orig_ttl := 3600; rs_expiration := 1710689605; rs_inception := 1708871605; rs_key_tag := 34164; rs_key_name := bs "ninja."; rs_signature := [131;245;242;191;167;48;172;105;105;19;40;87;13;93;111;116;170;104;203;214;71;236;113;122;48;175;248;214;173;6;200;42;221;247;2;252;6;188;202;66;12;47;46;163;129;134;247;212;88;0;137;119;174;130;38;145;12;102;116;176;31;198;67;17;197;152;98;199;124;157;141;160;136;101;251;34;127;243;27;63;143;3;126;71;148;90;178;216;24;47;65;197;130;104;222;71;183;255;129;81;56;25;92;118;201;4;73;40;214;37;139;103;92;161;114;32;255;192;15;151;78;164;187;73;196;20;187;207] |};
   RR_DnsKey {| dk_name := bs "bitcoin.ninja."; dk_flags := 257; dk_protocol := 3; dk_alg := 13; dk_pubkey := [210;82;25;35;144;71;238;73;59;229;31;254;213;19;17;121;1;52;39;104;144;195;73;88;217;164;58;120;35;59;23;81;61;100;195;92;32;96;181;112;57;121;248;87;0;83;89;143;240;93;214;179;97;99;130;240;130;209;45;170;240;224;69;217] |};
   RR_DnsKey {| dk_name := bs "bitcoin.ninja."; dk_flags := 256; dk_protocol := 3; dk_alg := 13; dk_pubkey := [205;185;182;172;168;51;92;59;81;21;93;48;22;105;229;80;199;78;93;103;13;40;72;198;32;123;25;237;176;39;79;54;225;237;50;68;204;247;45;74;219;66;105;59;221;104;228;113;44;190;0;136;233;62;84;109;162;94;114;246;82;224;191;197] |};
   RR_RRSig {| rs_name := bs "bitcoin.ninja."; rs_ty := 48; rs_alg := 13; rs_labels := 2; rs_orig_ttl := 604800; rs_expiration := 1709947337; rs_inception := 1708732337; rs_key_tag := 63175; rs_key_name := bs "bitcoin.ninja."; rs_signature := [99;116;232;228;86;104;102;224;67;80;203;72;5;149;234;205;27;110;127;36;106;58;80;234;108;117;92;161;148;34;181;124;94;172;40;13;67;80;172;85;217;168;21;83;38;102;164;85;230;126;34;180;131;87;219;31;189;27;253;245;143;141;116;162] |}].
Definition r_bitcoin_ninja_txt_record : list RR :=
  [RR_Txt {| tx_name := bs "txt_test.dnssec_proof_tests.bitcoin.ninja."; tx_data := bs "dnssec_prover_test" |};
   RR_RRSig {| rs_name := bs "txt_test.dnssec_proof_tests.bitcoin.ninja."; rs_ty := 16; rs_alg := 13; rs_labels := 4; rs_orig_ttl := 30; rs_expiration := 1709950937; rs_inception := 1708735937; rs_key_tag := 37639; rs_key_name := bs "bitcoin.ninja."; rs_signature := [75;155;48;123;160;76;78;172;11;5;78;133;31;96;249;210;62;64;246;46;97;206;88;187;245;89;95;231;16;121;215;155;58;98;25;156;170;135;91;61;153;197;148;222;61;69;208;68;227;115;202;139;211;9;113;122;71;78;32;113;189;54;1;121] |}].
Definition r_bitcoin_ninja_cname_record : list RR :=
  [RR_CName {| cn_name := bs "cname_test.dnssec_proof_tests.bitcoin.ninja."; cn_canonical := bs "txt_test.dnssec_proof_tests.bitcoin.ninja." |};
   RR_RRSig {| rs_name := bs "cname_test.dnssec_proof_tests.bitcoin.ninja."; rs_ty := 5; rs_alg := 13; rs_labels := 4; rs_orig_ttl := 30; rs_expiration := 1709950937; rs_inception := 1708735937; rs_key_tag := 37639; rs_key_name := bs "bitcoin.ninja."; rs_signature := [75;192;24;126;216;193;0;50;174;182;222;23;41;92;234;125;142;196;166;246;218;158;156;14;26;19;3;147;73;68;12;90;111;53;24;229;209;246;117;147;241;68;91;160;23;73;76;151;219;3;154;95;200;111;193;117;46;102;58;107;228;131;110;51] |}].
Definition r_bitcoin_ninja_txt_sort_edge_cases_records : list RR :=
  [RR_Txt {| tx_name := bs "txt_sort_order.dnssec_proof_tests.bitcoin.ninja."; tx_data := bs "aaaaaaaaaaaaaaaaaaaaaaaaaaaaaaaaaaaaaaaaaaaaaaaaaaaaaaaaaaaaaaaaaaaaaaaaaaaaaaaaaaaaaaaaaaaaaaaaaaaaaaaaaaaaaaaaaaaaaaaaaaaaaaaaaaaaaaaaaaaaaaaaaaaaaaaaaaaaaaaaaaaaaaaaaaaaaaaaaaaaaaaaaaaaaaaaaaaaaaaaaaaaaaaaaaaaaaaaaaaaaaaaaaaaaaaaaaaaaaaaaaaaaaaaaaaaaab" |};
   RR_Txt {| tx_name := bs "txt_sort_order.dnssec_proof_tests.bitcoin.ninja."; tx_data := bs "aaaaaaaaaaaaaaaaaaaaaaaaaaaaaaaaaaaaaaaaaaaaaaaaaaaaaaaaaaaaaaaaaaaaaaaaaaaaaaaaaaaaaaaaaaaaaaaaaaaaaaaaaaaaaaaaaaaaaaaaaaaaaaaaaaaaaaaaaaaaaaaaaaaaaaaaaaaaaaaaaaaaaaaaaaaaaaaaaaaaaaaaaaaaaaaaaaaaaaaaaaaaaaaaaaaaaaaaaaaaaaaaaaaaaaaaaaaaaaaaaaaaaaaaaaaaaaa" |};
   RR_Txt {| tx_name := bs "txt_sort_order.dnssec_proof_tests.bitcoin.ninja."; tx_data := bs "aaaaaaaaaaaaaaaaaaaaaaaaaaaaaaaaaaaaaaaaaaaaaaaaaaaaaaaaaaaaaaaaaaaaaaaaaaaaaaaaaaaaaaaaaaaaaaaaaaaaaaaaaaaaaaaaaaaaaaaaaaaaaaaaaaaaaaaaaaaaaaaaaaaaaaaaaaaaaaaaaaaaaaaaaaaaaaaaaaaaaaaaaaaaaaaaaaaaaaaaaaaaaaaaaaaaaaaaaaaaaaaaaaaaaaaaaaaaaaaaaaaaaaaaaaaaaabaa" |};
   RR_Txt {| tx_name := bs "txt_sort_order.dnssec_proof_tests.bitcoin.ninja."; tx_data := bs "aaaaaaaaaaaaaaaaaaaaaaaaaaaaaaaaaaaaaaaaaaaaaaaaaaaaaaaaaaaaaaaaaaaaaaaaaaaaaaaaaaaaaaaaaaaaaaaaaaaaaaaaaaaaaaaaaaaaaaaaaaaaaaaaaaaaaaaaaaaaaaaaaaaaaaaaaaaaaaaaaaaaaaaaaaaaaaaaaaaaaaaaaaaaaaaaaaaaaaaaaaaaaaaaaaaaaaaaaaaaaaaaaaaaaaaaaaaaaaaaaaaaaaaaaaaaaaaba" |};
   RR_Txt {| tx_name := bs "txt_sort_order.dnssec_proof_tests.bitcoin.ninja."; tx_data := bs "aaaaaaaaaaaaaaaaaaaaaaaaaaaaaaaaaaaaaaaaaaaaaaaaaaaaaaaaaaaaaaaaaaaaaaaaaaaaaaaaaaaaaaaaaaaaaaaaaaaaaaaaaaaaaaaaaaaaaaaaaaaaaaaaaaaaaaaaaaaaaaaaaaaaaaaaaaaaaaaaaaaaaaaaaaaaaaaaaaaaaaaaaaaaaaaaaaaaaaaaaaaaaaaaaaaaaaaaaaaaaaaaaaaaaaaaaaaaaaaaaaaaaaaaaaaaaaaa" |};
   RR_Txt {| tx_name := bs "txt_sort_order.dnssec_proof_tests.bitcoin.ninja."; tx_data := bs "aaaaaaaaaaaaaaaaaaaaaaaaaaaaaaaaaaaaaaaaaaaaaaaaaaaaaaaaaaaaaaaaaaaaaaaaaaaaaaaaaaaaaaaaaaaaaaaaaaaaaaaaaaaaaaaaaaaaaaaaaaaaaaaaaaaaaaaaaaaaaaaaaaaaaaaaaaaaaaaaaaaaaaaaaaaaaaaaaaaaaaaaaaaaaaaaaaaaaaaaaaaaaaaaaaaaaaaaaaaaaaaaaaaaaaaaaaaaaaaaaaaaaaaaaaaaaaab" |};
   RR_Txt {| tx_name := bs "txt_sort_order.dnssec_proof_tests.bitcoin.ninja."; tx_data := bs "aaaaaaaaaaaaaaaaaaaaaaaaaaaaaaaaaaaaaaaaaaaaaaaaaaaaaaaaaaaaaaaaaaaaaaaaaaaaaaaaaaaaaaaaaaaaaaaaaaaaaaaaaaaaaaaaaaaaaaaaaaaaaaaaaaaaaaaaaaaaaaaaaaaaaaaaaaaaaaaaaaaaaaaaaaaaaaaaaaaaaaaaaaaaaaaaaaaaaaaaaaaaaaaaaaaaaaaaaaaaaaaaaaaaaaaaaaaaaaaaaaaaaaaaaaaaaaaaa" |};
   RR_Txt {| tx_name := bs "txt_sort_order.dnssec_proof_tests.bitcoin.ninja."; tx_data := bs "aaaaaaaaaaaaaaaaaaaaaaaaaaaaaaaaaaaaaaaaaaaaaaaaaaaaaaaaaaaaaaaaaaaaaaaaaaaaaaaaaaaaaaaaaaaaaaaaaaaaaaaaaaaaaaaaaaaaaaaaaaaaaaaaaaaaaaaaaaaaaaaaaaaaaaaaaaaaaaaaaaaaaaaaaaaaaaaaaaaaaaaaaaaaaaaaaaaaaaaaaaaaaaaaaaaaaaaaaaaaaaaaaaaaaaaaaaaaaaaaaaaaaaaaaaaaaaba" |};
   RR_RRSig {| rs_name := bs "txt_sort_order.dnssec_proof_tests.bitcoin.ninja."; rs_ty := 16; rs_alg := 13; rs_labels := 4; rs_orig_ttl := 30; rs_expiration := 1709950937; rs_inception := 1708735937; rs_key_tag := 37639; rs_key_name := bs "bitcoin.ninja."; rs_signature := [145;66;155;182;131;88;51;170;167;187;222;80;38;140;148;194;220;217;160;196;220;69;87;205;124;130;42;75;4;78;45;211;24;170;170;187;209;17;35;10;239;125;121;200;206;91;246;102;217;116;108;39;210;160;24;16;127;74;232;129;118;233;203;123] |}].
Definition r_bitcoin_ninja_wildcard_record (pfx : string) : list RR :=
  [RR_Txt {| tx_name := (bs (pfx ++ ".wildcard_test.dnssec_proof_tests.bitcoin.ninja.")); tx_data := bs "wildcard_test" |};
   RR_RRSig {| rs_name := (bs (pfx ++ ".wildcard_test.dnssec_proof_tests.bitcoin.ninja.")); rs_ty := 16; rs_alg := 13; rs_labels := 4; rs_orig_ttl := 30; rs_expiration := 1709950937; rs_inception := 1708735937; rs_key_tag := 37639; rs_key_name := bs "bitcoin.ninja."; rs_signature := [99;232;43;89;124;219;101;250;220;160;116;89;11;217;31;71;53;169;211;77;163;103;48;67;154;148;144;199;170;155;82;3;116;199;118;135;246;70;72;57;92;180;10;212;7;218;252;38;45;76;104;39;228;101;123;56;46;156;210;58;45;200;129;205] |};
   RR_NSec3 {| n3_name := bs "s5sn15c8lcpo7v7f1p0ms6vlbdejt0kd.bitcoin.ninja."; n3_algo := 1; n3_flags := 0; n3_iters := 0; n3_salt := [5;152;85;189;16;119;162;235]; n3_next_hash := [234;53;130;195;6;177;205;21;236;186;55;71;3;45;187;58;104;187;55;138]; n3_types := mask_from_types [28; 46] |};
   RR_RRSig {| rs_name := bs "s5sn15c8lcpo7v7f1p0ms6vlbdejt0kd.bitcoin.ninja."; rs_ty := 50; rs_alg := 13; rs_labels := 3; rs_orig_ttl := 60; rs_expiration := 1710267741; rs_inception := 1709052741; rs_key_tag := 37639; rs_key_name := bs "bitcoin.ninja."; rs_signature := [2;44;250;51;45;224;161;100;46;32;140;63;92;213;40;250;66;2;178;159;94;224;46;87;81;75;63;208;10;126;88;129;5;38;198;141;252;195;198;122;8;145;253;206;70;80;103;109;30;221;70;117;227;253;9;77;199;212;225;164;55;211;41;89] |}].
Definition r_bitcoin_ninja_cname_wildcard_record : list RR :=
  [RR_CName {| cn_name := bs "asdf.cname_wildcard_test.dnssec_proof_tests.bitcoin.ninja."; cn_canonical := bs "cname.wildcard_test.dnssec_proof_tests.bitcoin.ninja." |};
   RR_RRSig {| rs_name := bs "asdf.cname_wildcard_test.dnssec_proof_tests.bitcoin.ninja."; rs_ty := 5; rs_alg := 13; rs_labels := 4; rs_orig_ttl := 30; rs_expiration := 1709950937; rs_inception := 1708735937; rs_key_tag := 37639; rs_key_name := bs "bitcoin.ninja."; rs_signature := [169;31;243;203;194;114;138;18;56;168;32;12;194;126;227;25;78;133;1;21;191;30;95;63;187;231;26;141;231;253;173;162;172;229;163;177;157;154;66;174;157;125;78;139;125;168;241;186;167;31;79;206;166;160;132;2;15;212;73;177;126;12;109;69] |};
   RR_NSec3 {| n3_name := bs "2tn37cu4ulmlqqke9a3dc9g8bt8b4f6s.bitcoin.ninja."; n3_algo := 1; n3_flags := 0; n3_iters := 0; n3_salt := [5;152;85;189;16;119;162;235]; n3_next_hash := [38;40;248;242;60;32;90;0;57;181;4;111;155;116;251;52;169;105;145;17]; n3_types := mask_from_types [39; 46] |};
   RR_RRSig {| rs_name := bs "2tn37cu4ulmlqqke9a3dc9g8bt8b4f6s.bitcoin.ninja."; rs_ty := 50; rs_alg := 13; rs_labels := 3; rs_orig_ttl := 60; rs_expiration := 1710266541; rs_inception := 1709051541; rs_key_tag := 37639; rs_key_name := bs "bitcoin.ninja."; rs_signature := [181;43;15;177;130;31;214;142;126;166;37;25;95;214;48;113;98;146;102;5;80;56;29;251;77;23;91;249;82;244;62;103;15;104;186;115;20;98;66;193;77;44;158;127;45;48;223;193;184;130;198;248;166;88;249;67;230;0;70;89;23;62;5;190] |};
   RR_NSec3 {| n3_name := bs "cjqf7lfu6ev77k9m2o6iih56kbfnshin.bitcoin.ninja."; n3_algo := 1; n3_flags := 0; n3_iters := 0; n3_salt := [5;152;85;189;16;119;162;235]; n3_next_hash := [107;71;110;136;117;48;241;40;235;50;178;139;129;95;213;231;229;9;76;119]; n3_types := mask_from_types [1; 28; 46] |};
   RR_RRSig {| rs_name := bs "cjqf7lfu6ev77k9m2o6iih56kbfnshin.bitcoin.ninja."; rs_ty := 50; rs_alg := 13; rs_labels := 3; rs_orig_ttl := 60; rs_expiration := 1710238940; rs_inception := 1709023940; rs_key_tag := 37639; rs_key_name := bs "bitcoin.ninja."; rs_signature := [10;214;43;136;229;8;233;28;232;32;109;210;138;1;219;5;136;147;146;177;47;153;33;47;63;230;142;46;141;112;202;90;164;108;20;246;136;110;233;43;197;77;185;194;132;78;163;25;9;19;139;158;100;65;195;192;199;43;255;43;162;194;152;176] |}].
Definition r_bitcoin_ninja_nsec_dnskey : list RR :=
  [RR_DS {| ds_name := bs "nsec_tests.dnssec_proof_tests.bitcoin.ninja."; ds_key_tag := 8036; ds_alg := 13; ds_digest_type := 2; ds_digest := [142;192;218;228;80;18;51;151;145;150;235;237;32;98;18;188;204;73;228;14;8;110;194;229;101;88;236;31;111;182;39;21] |};
   RR_RRSig {| rs_name := bs "nsec_tests.dnssec_proof_tests.bitcoin.ninja."; rs_ty := 43; rs_alg := 13; rs_labels := 4; rs_orig_ttl := 30; rs_expiration := 1710190967; rs_inception := 1708975967; rs_key_tag := 37639; rs_key_name := bs "bitcoin.ninja."; rs_signature := [169;71;177;35;92;174;126;187;180;151;57;13;15;139;152;214;191;27;177;122;215;156;197;77;140;252;83;45;178;218;185;26;63;249;133;180;227;92;61;192;91;184;178;93;191;114;170;183;166;197;175;25;192;85;78;91;112;33;216;195;37;5;28;101] |};
   RR_DnsKey {| dk_name := bs "nsec_tests.dnssec_proof_tests.bitcoin.ninja."; dk_flags := 257; dk_protocol := 3; dk_alg := 13; dk_pubkey := [49;73;200;134;109;245;201;34;43;245;101;200;5;84;28;223;204;37;72;113;239;97;162;136;56;84;124;89;137;120;59;211;9;6;92;176;89;229;29;199;94;168;26;41;194;123;97;99;140;201;20;144;169;253;145;94;115;205;104;70;154;183;72;109] |};
   RR_DnsKey {| dk_name := bs "nsec_tests.dnssec_proof_tests.bitcoin.ninja."; dk_flags := 256; dk_protocol := 3; dk_alg := 13; dk_pubkey := [24;102;79;242;78;56;178;186;54;137;60;214;40;90;7;58;118;239;172;8;77;137;11;254;54;13;161;175;69;141;201;189;184;104;14;107;45;130;197;105;205;205;236;31;54;197;21;54;161;215;122;210;235;88;38;73;148;211;32;63;255;60;142;207] |};
   RR_RRSig {| rs_name := bs "nsec_tests.dnssec_proof_tests.bitcoin.ninja."; rs_ty := 48; rs_alg := 13; rs_labels := 4; rs_orig_ttl := 604800; rs_expiration := 1710190613; rs_inception := 1708975613; rs_key_tag := 8036; rs_key_name := bs "nsec_tests.dnssec_proof_tests.bitcoin.ninja."; rs_signature := [157;127;161;144;125;120;42;248;233;219;166;124;199;250;99;98;30;66;65;109;233;246;86;80;67;225;85;37;194;135;201;248;192;138;81;46;110;156;58;138;25;79;165;189;195;118;31;65;111;44;97;8;65;97;92;51;6;218;14;40;119;214;54;163] |}].
Definition r_bitcoin_ninja_nsec_record : list RR :=
  [RR_Txt {| tx_name := bs "a.nsec_tests.dnssec_proof_tests.bitcoin.ninja."; tx_data := bs "txt_a" |};
   RR_RRSig {| rs_name := bs "a.nsec_tests.dnssec_proof_tests.bitcoin.ninja."; rs_ty := 16; rs_alg := 13; rs_labels := 5; rs_orig_ttl := 30; rs_expiration := 1710201091; rs_inception := 1708986091; rs_key_tag := 42215; rs_key_name := bs "nsec_tests.dnssec_proof_tests.bitcoin.ninja."; rs_signature := [174;16;220;102;244;164;226;120;50;14;99;34;127;122;1;154;128;204;59;86;40;138;100;107;188;234;127;18;185;82;106;232;205;248;224;140;42;135;32;90;75;44;121;212;2;199;184;114;47;28;44;20;187;218;106;35;87;10;191;251;101;164;158;225] |}].
Definition r_bitcoin_ninja_nsec_wildcard_record (pfx : string) : list RR :=
  [RR_Txt {| tx_name := (bs (pfx ++ ".wildcard_test.nsec_tests.dnssec_proof_tests.bitcoin.ninja.")); tx_data := bs "wildcard_test" |};
   RR_RRSig {| rs_name := (bs (pfx ++ ".wildcard_test.nsec_tests.dnssec_proof_tests.bitcoin.ninja.")); rs_ty := 16; rs_alg := 13; rs_labels := 5; rs_orig_ttl := 30; rs_expiration := 1710190613; rs_inception := 1708975613; rs_key_tag := 42215; rs_key_name := bs "nsec_tests.dnssec_proof_tests.bitcoin.ninja."; rs_signature := [19;127;173;17;238;83;196;143;14;72;211;254;45;81;236;57;168;35;67;255;97;120;62;154;224;128;152;6;4;188;154;71;209;186;168;5;121;120;115;219;105;248;127;98;243;178;199;87;123;92;115;193;172;173;238;116;78;116;119;106;117;241;195;98] |};
   RR_NSec {| ns_name := bs "*.wildcard_test.nsec_tests.dnssec_proof_tests.bitcoin.ninja."; ns_next := bs "override.wildcard_test.nsec_tests.dnssec_proof_tests.bitcoin.ninja."; ns_types := mask_from_types [16; 46; 47] |};
   RR_RRSig {| rs_name := bs "*.wildcard_test.nsec_tests.dnssec_proof_tests.bitcoin.ninja."; rs_ty := 47; rs_alg := 13; rs_labels := 5; rs_orig_ttl := 60; rs_expiration := 1710191561; rs_inception := 1708976561; rs_key_tag := 42215; rs_key_name := bs "nsec_tests.dnssec_proof_tests.bitcoin.ninja."; rs_signature := [102;52;12;195;87;109;213;174;181;119;137;108;222;147;36;10;112;98;89;22;140;200;12;39;233;70;169;69;166;13;181;208;60;113;54;219;169;184;115;37;144;175;115;166;65;133;159;116;11;60;66;97;29;33;253;230;175;163;9;69;214;62;119;26] |}].
Definition r_bitcoin_ninja_nsec_post_override_wildcard_record (pfx : string) : list RR :=
  [RR_Txt {| tx_name := (bs (pfx ++ ".wildcard_test.nsec_tests.dnssec_proof_tests.bitcoin.ninja.")); tx_data := bs "wildcard_test" |};
   RR_RRSig {| rs_name := (bs (pfx ++ ".wildcard_test.nsec_tests.dnssec_proof_tests.bitcoin.ninja.")); rs_ty := 16; rs_alg := 13; rs_labels := 5; rs_orig_ttl := 30; rs_expiration := 1710190613; rs_inception := 1708975613; rs_key_tag := 42215; rs_key_name := bs "nsec_tests.dnssec_proof_tests.bitcoin.ninja."; rs_signature := [19;127;173;17;238;83;196;143;14;72;211;254;45;81;236;57;168;35;67;255;97;120;62;154;224;128;152;6;4;188;154;71;209;186;168;5;121;120;115;219;105;248;127;98;243;178;199;87;123;92;115;193;172;173;238;116;78;116;119;106;117;241;195;98] |};
   RR_NSec {| ns_name := bs "override.wildcard_test.nsec_tests.dnssec_proof_tests.bitcoin.ninja."; ns_next := bs "nsec_tests.dnssec_proof_tests.bitcoin.ninja."; ns_types := mask_from_types [16; 46; 47] |};
   RR_RRSig {| rs_name := bs "override.wildcard_test.nsec_tests.dnssec_proof_tests.bitcoin.ninja."; rs_ty := 47; rs_alg := 13; rs_labels := 6; rs_orig_ttl := 60; rs_expiration := 1710201063; rs_inception := 1708986063; rs_key_tag := 42215; rs_key_name := bs "nsec_tests.dnssec_proof_tests.bitcoin.ninja."; rs_signature := [164;19;87;156;211;209;209;248;134;18;217;38;255;67;229;156;53;188;223;66;86;191;194;160;159;40;103;58;43;122;192;177;237;137;106;11;132;200;146;227;203;173;142;45;197;109;55;222;148;41;222;62;54;203;135;251;123;72;95;120;212;237;144;76] |}].
Definition rfc9102_chain : bytes :=
  [4;95;52;52;51;4;95;116;99;112;3;119;119;119;7;101;120;97;109;112;108;101;3;99;111;109;0;0;52;0;1;0;0;14;16;0;35;3;1;1;139;209;218;149;39;47;127;164;255;178;65;55;252;14;208;58;174;103;229;196;216;179;197;7;52;225;5;10;121;32;185;34;4;95;52;52;51;4;95;116;99;112;3;119;119;119;7;101;120;97;109;112;108;101;3;99;111;109;0;0;46;0;1;0;0;14;16;0;95;0;52;13;5;0;0;14;16;95;198;217;0;91;253;218;128;7;78;7;101;120;97;109;112;108;101;3;99;111;109;0;206;29;58;222;183;220;124;238;101;109;97;207;180;114;197;151;124;140;156;174;174;155;118;81;85;197;24;251;16;123;106;31;224;53;95;186;175;117;60;25;40;50;250;98;31;167;58;139;133;237;121;211;116;17;115;135;89;143;204;129;46;30;243;251;7;101;120;97;109;112;108;101;3;99;111;109;0;0;48;0;1;0;0;14;16;0;68;1;1;3;13;38;112;53;94;12;137;77;156;254;166;197;175;110;183;212;88;181;122;80;186;136;39;37;18;216;36;29;133;65;253;84;173;249;110;201;86;120;154;81;206;185;113;9;75;59;179;244;236;73;246;76;104;101;149;190;91;46;137;232;121;156;119;23;204;7;101;120;97;109;112;108;101;3;99;111;109;0;0;46;0;1;0;0;14;16;0;95;0;48;13;2;0;0;14;16;95;198;217;0;91;253;218;128;7;78;7;101;120;97;109;112;108;101;3;99;111;109;0;70;40;56;48;117;184;227;75;116;58;32;155;39;174;20;141;17;13;78;26;36;97;56;169;16;131;36;156;180;161;42;45;155;196;194;215;171;94;179;175;185;245;209;3;126;77;93;168;51;156;22;42;146;152;233;190;24;7;65;168;202;116;172;204;7;101;120;97;109;112;108;101;3;99;111;109;0;0;43;0;1;0;2;163;0;0;36;7;78;13;2;233;181;51;160;73;121;142;144;11;92;41;201;12;210;90;152;110;138;68;243;25;172;60;211;2;186;252;8;245;184;30;22;7;101;120;97;109;112;108;101;3;99;111;109;0;0;46;0;1;0;2;163;0;0;87;0;43;13;2;0;2;163;0;95;198;217;0;91;253;218;128;134;23;3;99;111;109;0;162;3;231;4;166;250;203;235;19;252;147;132;253;214;222;107;80;222;86;89;39;31;56;206;129;73;134;132;230;54;49;114;212;126;35;25;253;180;162;42;88;162;49;237;194;241;255;79;178;129;26;24;7;190;114;203;82;65;170;38;253;174;224;57;3;99;111;109;0;0;48;0;1;0;2;163;0;0;68;1;0;3;13;236;130;4;228;58;37;242;52;140;82;161;211;188;227;162;101;170;93;17;180;61;194;164;113;22;47;243;65;196;157;185;245;10;46;26;65;202;242;233;205;32;16;78;160;150;143;117;17;33;159;11;220;86;182;128;18;204;57;149;51;103;81;144;11;3;99;111;109;0;0;48;0;1;0;2;163;0;0;68;1;1;3;13;69;185;28;59;239;122;93;153;167;167;200;216;34;227;56;150;188;128;167;119;160;66;52;166;5;164;168;136;14;199;239;164;230;209;18;199;60;211;212;198;85;100;250;116;52;124;135;55;35;204;95;100;51;112;241;102;180;61;237;255;131;100;0;255;3;99;111;109;0;0;48;0;1;0;2;163;0;0;68;1;1;3;13;179;55;59;110;34;232;228;158;14;30;89;26;159;91;217;172;94;26;15;134;24;127;227;71;3;241;128;169;211;108;149;143;113;196;175;72;206;14;188;92;121;42;114;78;17;180;56;149;147;126;229;52;4;38;129;41;71;110;177;174;211;35;147;144;3;99;111;109;0;0;46;0;1;0;2;163;0;0;87;0;48;13;1;0;2;163;0;95;198;217;0;91;253;218;128;73;243;3;99;111;109;0;24;169;72;235;35;212;79;128;171;201;146;56;252;180;60;90;24;222;190;87;0;79;115;67;89;63;109;235;110;215;30;4;101;74;67;63;122;161;151;33;48;217;189;146;28;115;220;246;63;207;102;95;47;5;160;170;235;175;176;89;220;18;201;101;3;99;111;109;0;0;46;0;1;0;2;163;0;0;87;0;48;13;1;0;2;163;0;95;198;217;0;91;253;218;128;112;137;3;99;111;109;0;97;112;230;149;155;217;237;110;87;88;55;182;245;128;189;153;219;210;74;68;104;43;10;53;150;38;162;70;177;129;47;95;144;150;183;94;21;126;119;132;143;6;138;224;8;94;26;96;159;193;146;152;195;59;115;104;99;251;204;212;216;31;94;178;3;99;111;109;0;0;43;0;1;0;1;81;128;0;36;73;243;13;2;32;247;169;219;66;208;226;4;47;187;185;249;234;1;89;65;32;47;158;171;185;68;135;230;88;193;136;231;188;181;33;21;3;99;111;109;0;0;43;0;1;0;1;81;128;0;36;112;137;13;2;173;102;179;39;111;121;98;35;170;69;237;167;115;233;44;109;152;231;6;67;187;222;104;29;179;66;169;229;207;43;179;128;3;99;111;109;0;0;46;0;1;0;1;81;128;0;83;0;43;13;1;0;1;81;128;95;198;217;0;91;253;218;128;124;174;0;18;46;39;109;69;217;233;129;111;121;34;173;110;162;231;62;130;210;111;206;10;75;113;134;37;243;20;83;26;201;47;138;232;36;24;223;155;137;143;152;157;50;232;11;196;222;171;167;196;167;200;241;114;173;181;124;237;127;181;231;122;120;75;7;0;0;48;0;1;0;1;81;128;0;68;1;0;3;13;204;172;254;12;37;164;52;15;239;186;23;162;84;247;6;170;193;248;209;79;56;41;144;37;172;196;72;202;140;227;245;97;243;127;195;236;22;159;232;71;200;252;190;104;227;88;255;124;113;187;94;225;223;13;190;81;139;199;54;212;206;141;254;20;0;0;48;0;1;0;1;81;128;0;68;1;0;3;13;243;3;25;103;137;115;29;220;138;103;135;239;242;76;172;254;221;208;50;88;47;17;167;91;177;188;170;90;179;33;193;215;82;92;38;88;25;26;236;1;179;233;138;183;145;91;22;213;113;221;85;180;234;229;20;23;17;12;196;205;209;29;23;17;0;0;48;0;1;0;1;81;128;0;68;1;1;3;13;202;245;254;84;212;212;143;22;98;26;251;107;211;173;33;85;186;207;87;209;250;173;91;172;66;209;125;148;140;66;23;54;217;56;156;76;64;17;102;110;169;92;241;119;37;189;15;160;12;229;231;20;228;236;130;207;223;172;201;177;200;99;173;70;0;0;46;0;1;0;1;81;128;0;83;0;48;13;0;0;1;81;128;95;198;217;0;91;253;218;128;183;157;0;222;122;103;64;238;236;186;75;218;30;92;45;212;137;155;44;150;88;147;243;120;108;231;71;244;30;80;217;222;140;10;114;223;130;86;13;251;72;215;20;222;50;131;174;153;164;156;15;203;80;211;170;173;177;163;252;98;238;58;138;9;136;182;190].
Definition good_signatures : list (sigalg * pubkey * bytes * bytes) :=
  [(RSA_SHA256, PK_RSA [172;255;180;9;188;201;57;248;49;247;161;229;236;136;247;165;146;85;236;83;4;11;228;50;2;115;144;164;206;137;109;111;144;134;243;197;225;119;251;254;17;129;99;170;236;122;241;70;44;71;148;89;68;196;226;192;38;190;94;152;187;205;237;37;151;130;114;225;227;224;121;197;9;77;87;63;14;131;201;47;2;179;45;53;19;177;85;11;130;105;41;200;13;208;249;44;172;150;109;23;118;159;213;134;123;100;124;63;56;2;154;189;196;129;82;235;143;32;113;89;236;197;210;50;199;193;83;124;121;244;183;172;40;255;17;104;47;33;104;27;246;214;171;165;85;3;43;246;249;240;54;190;178;170;165;179;119;141;110;235;251;166;191;158;161;145;190;74;176;202;234;117;158;47;119;58;31;144;41;199;62;203;141;87;53;185;50;29;176;133;241;184;226;216;3;143;226;148;25;146;84;140;238;13;103;221;69;71;225;29;214;58;249;201;252;28;84;102;251;104;76;240;9;215;25;124;44;247;158;121;42;181;1;230;168;161;202;81;154;242;203;155;95;99;103;233;76;13;71;80;36;81;53;123;225;181] [1;0;1],
    [0;48;8;0;0;2;163;0;101;239;155;0;101;211;235;128;79;102;0;0;0;48;0;1;0;2;163;0;1;8;1;0;3;8;3;1;0;1;233;237;9;194;4;157;210;225;217;4;138;250;145;197;171;243;228;40;44;34;163;27;123;229;222;234;52;229;46;76;243;40;208;87;45;123;243;91;192;51;219;161;203;219;103;247;141;111;148;85;255;20;29;106;150;137;1;36;63;160;50;236;171;48;244;31;95;137;144;115;110;184;167;54;36;187;105;51;24;56;130;84;132;224;41;209;93;61;130;156;84;214;228;140;14;68;66;254;205;234;153;31;46;188;57;124;185;158;5;185;40;2;219;122;244;88;70;15;234;218;161;94;205;27;66;73;13;36;158;108;143;194;1;108;130;21;88;44;172;34;215;94;168;199;1;20;231;38;122;91;185;233;88;204;109;229;159;144;179;199;98;60;213;171;75;150;151;46;2;109;173;101;6;32;139;133;126;230;112;93;140;226;25;19;255;207;122;53;17;243;40;247;54;84;215;210;139;162;153;40;45;117;251;46;207;221;136;37;221;72;71;73;93;59;69;3;204;52;252;226;144;190;43;137;121;183;202;177;202;4;148;36;236;194;233;21;103;85;87;230;6;218;20;74;54;197;104;71;39;213;40;235;124;24;105;57;0;0;48;0;1;0;2;163;0;1;8;1;1;3;8;3;1;0;1;172;255;180;9;188;201;57;248;49;247;161;229;236;136;247;165;146;85;236;83;4;11;228;50;2;115;144;164;206;137;109;111;144;134;243;197;225;119;251;254;17;129;99;170;236;122;241;70;44;71;148;89;68;196;226;192;38;190;94;152;187;205;237;37;151;130;114;225;227;224;121;197;9;77;87;63;14;131;201;47;2;179;45;53;19;177;85;11;130;105;41;200;13;208;249;44;172;150;109;23;118;159;213;134;123;100;124;63;56;2;154;189;196;129;82;235;143;32;113;89;236;197;210;50;199;193;83;124;121;244;183;172;40;255;17;104;47;33;104;27;246;214;171;165;85;3;43;246;249;240;54;190;178;170;165;179;119;141;110;235;251;166;191;158;161;145;190;74;176;202;234;117;158;47;119;58;31;144;41;199;62;203;141;87;53;185;50;29;176;133;241;184;226;216;3;143;226;148;25;146;84;140;238;13;103;221;69;71;225;29;214;58;249;201;252;28;84;102;251;104;76;240;9;215;25;124;44;247;158;121;42;181;1;230;168;161;202;81;154;242;203;155;95;99;103;233;76;13;71;80;36;81;53;123;225;181],
    [24;136;48;157;212;75;94;11;123;25;127;201;52;74;146;190;150;48;230;40;250;18;7;144;138;247;66;254;25;141;54;227;157;216;192;144;69;44;89;199;96;221;45;149;40;43;75;102;159;101;230;57;221;47;96;253;58;14;9;8;49;74;72;93;192;108;183;15;212;155;158;86;66;27;193;144;20;207;34;27;129;221;75;202;96;155;45;154;175;188;132;81;214;84;156;10;29;56;61;198;237;252;36;14;55;86;0;149;216;6;243;186;182;243;52;226;210;130;175;171;12;247;165;69;124;233;46;190;90;96;77;242;248;75;175;47;226;57;130;235;38;224;195;26;142;122;121;75;232;168;88;226;254;201;99;167;64;78;151;42;128;230;150;183;220;78;182;31;69;44;81;180;151;176;62;97;158;9;179;93;192;69;1;58;130;212;85;217;2;141;1;184;184;92;164;112;162;248;209;198;60;16;232;85;152;205;228;92;12;174;62;227;94;217;124;245;66;178;28;85;167;127;83;129;67;158;207;161;119;207;150;250;197;167;175;196;0;180;133;5;79;154;65;141;122;40;25;45;54;155;167;140;117;39;148;234]);
   (RSA_SHA256, PK_RSA [233;237;9;194;4;157;210;225;217;4;138;250;145;197;171;243;228;40;44;34;163;27;123;229;222;234;52;229;46;76;243;40;208;87;45;123;243;91;192;51;219;161;203;219;103;247;141;111;148;85;255;20;29;106;150;137;1;36;63;160;50;236;171;48;244;31;95;137;144;115;110;184;167;54;36;187;105;51;24;56;130;84;132;224;41;209;93;61;130;156;84;214;228;140;14;68;66;254;205;234;153;31;46;188;57;124;185;158;5;185;40;2;219;122;244;88;70;15;234;218;161;94;205;27;66;73;13;36;158;108;143;194;1;108;130;21;88;44;172;34;215;94;168;199;1;20;231;38;122;91;185;233;88;204;109;229;159;144;179;199;98;60;213;171;75;150;151;46;2;109;173;101;6;32;139;133;126;230;112;93;140;226;25;19;255;207;122;53;17;243;40;247;54;84;215;210;139;162;153;40;45;117;251;46;207;221;136;37;221;72;71;73;93;59;69;3;204;52;252;226;144;190;43;137;121;183;202;177;202;4;148;36;236;194;233;21;103;85;87;230;6;218;20;74;54;197;104;71;39;213;40;235;124;24;105;57] [1;0;1],
    [0;43;8;1;0;1;81;128;101;238;143;208;101;221;94;64;120;183;0;3;99;111;109;0;0;43;0;1;0;1;81;128;0;36;77;6;13;2;138;203;176;205;40;244;18;80;168;10;73;19;137;66;77;52;21;34;217;70;176;218;12;2;145;242;211;215;113;215;128;90],
    [88;71;251;80;250;168;186;92;90;111;205;231;87;47;249;215;196;233;101;192;183;162;13;41;105;158;203;106;14;98;58;161;157;152;107;217;156;29;50;67;141;172;219;152;170;7;249;139;233;149;62;177;37;48;98;135;37;113;109;250;78;255;242;30;4;188;215;116;246;192;232;16;224;152;116;213;160;172;142;72;239;166;10;91;182;112;211;198;15;27;47;125;11;87;90;27;133;8;78;4;91;185;74;160;248;20;227;30;105;95;69;169;199;223;237;158;246;188;45;84;117;92;180;186;205;138;110;27;98;222;228;24;172;164;37;25;135;3;50;88;16;3;35;132;209;97;26;45;62;248;97;242;133;78;150;111;32;173;20;125;71;221;80;0;34;51;70;122;61;72;187;6;140;147;160;131;126;120;162;143;190;124;191;251;128;79;246;37;111;0;233;143;50;10;254;146;175;234;33;99;157;178;245;26;171;244;190;147;181;68;61;50;68;139;232;182;128;224;224;108;192;190;220;70;89;165;152;158;246;75;245;16;64;48;27;0;109;26;49;59;108;185;64;213;5;27;185;87;147;129;204;200;206;182;43;137]);
   (ECDSA_P256, PK_raw (4 :: [183;31;4;101;16;29;219;226;191;12;148;85;209;47;161;108;28;218;68;244;191;27;162;85;52;24;173;31;58;169;176;105;115;242;27;132;235;83;44;244;3;94;232;212;131;44;162;109;137;48;106;125;50;86;12;12;176;18;157;69;10;193;8;53]),
    [0;48;13;1;0;1;81;128;101;241;192;11;101;221;248;95;77;6;3;99;111;109;0;3;99;111;109;0;0;48;0;1;0;1;81;128;0;68;1;0;3;13;230;47;106;140;152;50;31;239;76;7;62;213;59;110;189;254;202;203;64;31;241;69;25;101;201;74;21;171;202;11;5;155;33;61;238;2;27;48;210;20;105;215;0;205;203;253;3;243;7;213;11;164;155;174;203;184;220;198;96;89;228;70;232;236;3;99;111;109;0;0;48;0;1;0;1;81;128;0;68;1;1;3;13;183;31;4;101;16;29;219;226;191;12;148;85;209;47;161;108;28;218;68;244;191;27;162;85;52;24;173;31;58;169;176;105;115;242;27;132;235;83;44;244;3;94;232;212;131;44;162;109;137;48;106;125;50;86;12;12;176;18;157;69;10;193;8;53],
    [148;93;129;246;117;217;159;64;160;202;218;199;31;172;65;208;212;239;107;129;191;105;107;224;255;42;103;75;18;124;249;149;229;189;29;2;227;222;248;200;31;167;119;102;86;205;99;8;10;207;232;61;131;10;161;1;234;197;88;231;27;43;188;156]);
   (RSA_SHA256, PK_RSA [233;237;9;194;4;157;210;225;217;4;138;250;145;197;171;243;228;40;44;34;163;27;123;229;222;234;52;229;46;76;243;40;208;87;45;123;243;91;192;51;219;161;203;219;103;247;141;111;148;85;255;20;29;106;150;137;1;36;63;160;50;236;171;48;244;31;95;137;144;115;110;184;167;54;36;187;105;51;24;56;130;84;132;224;41;209;93;61;130;156;84;214;228;140;14;68;66;254;205;234;153;31;46;188;57;124;185;158;5;185;40;2;219;122;244;88;70;15;234;218;161;94;205;27;66;73;13;36;158;108;143;194;1;108;130;21;88;44;172;34;215;94;168;199;1;20;231;38;122;91;185;233;88;204;109;229;159;144;179;199;98;60;213;171;75;150;151;46;2;109;173;101;6;32;139;133;126;230;112;93;140;226;25;19;255;207;122;53;17;243;40;247;54;84;215;210;139;162;153;40;45;117;251;46;207;221;136;37;221;72;71;73;93;59;69;3;204;52;252;226;144;190;43;137;121;183;202;177;202;4;148;36;236;194;233;21;103;85;87;230;6;218;20;74;54;197;104;71;39;213;40;235;124;24;105;57] [1;0;1],
    [0;43;8;1;0;1;81;128;101;238;143;208;101;221;94;64;120;183;0;5;110;105;110;106;97;0;0;43;0;1;0;1;81;128;0;36;180;2;8;2;200;248;22;167;165;117;189;178;249;151;246;130;170;178;101;59;162;203;94;221;182;155;3;106;48;116;42;51;190;250;241;65],
    [225;242;226;122;76;73;203;91;71;91;123;12;206;99;192;254;46;12;159;164;216;160;33;195;41;183;47;147;123;119;55;162;23;50;64;2;74;5;62;232;254;77;197;35;49;163;149;218;237;130;249;82;225;53;32;32;202;197;233;121;163;149;179;202;248;218;69;0;63;254;22;104;154;60;39;11;58;178;27;101;232;75;165;90;241;197;11;72;224;57;140;229;53;231;115;82;10;250;44;223;216;135;120;153;238;60;131;115;108;192;31;176;167;32;232;134;255;32;57;141;158;154;46;64;94;119;133;12;213;203;238;76;24;185;70;61;70;99;72;238;155;224;98;44;151;34;169;44;109;45;4;178;151;51;154;217;93;17;15;36;41;68;99;226;214;40;235;64;75;88;128;70;167;108;90;100;167;43;22;66;166;9;196;142;105;42;36;27;99;10;235;62;179;160;45;50;215;129;28;129;114;121;188;0;238;133;3;54;210;119;34;109;93;59;150;250;177;74;6;63;200;20;130;122;157;20;66;210;44;71;132;132;166;10;164;239;163;74;187;136;242;15;224;140;210;27;228;47;111;15;0;45;113;42;0;123]);
   (RSA_SHA256, PK_RSA [199;30;76;157;196;146;73;162;123;62;244;47;203;141;86;180;195;172;118;113;92;122;208;28;65;208;212;50;89;13;21;195;198;44;238;75;45;41;172;53;242;215;44;155;50;167;10;2;67;203;208;138;238;188;159;111;30;14;99;217;225;205;254;19;60;69;90;130;67;92;7;128;183;80;1;44;148;47;126;213;182;98;238;200;217;174;136;90;88;153;63;167;141;117;97;254;220;209;29;158;28;23;26;203;2;208;2;88;55;186;97;163;192;166;117;100;39;65;68;112;201;202;9;6;178;152;22;139;95;77;150;64;230;46;27;117;221;6;190;102;65;4;237;50;207;228;71;250;33;243;116;1;113;44;114;10;13;202;75;177;188;32;243;250;49;3;202;211;54;189;226;11;22;247;57;72;230;184;13;218;10;82;141;181;54;169;88;134;140;56;112;236;221;207;176;45;251;60;180;210;46;42;212;154;75;159;120;201;15;246;199;225;14;48;27;63;179;111;232;89;169;76;48;8;70;96;102;87;65;193;79;246;13;5;53;1;63;207;67;152;64;236;173;130;252;146;120;228;172;230;139;169;94;112;130;73] [1;0;1],
    [0;48;8;1;0;0;14;16;101;247;13;69;101;219;79;181;180;2;5;110;105;110;106;97;0;5;110;105;110;106;97;0;0;48;0;1;0;0;14;16;0;136;1;0;3;8;3;1;0;1;153;100;122;200;96;95;100;61;139;245;248;205;147;28;217;200;138;59;102;183;250;99;162;56;43;152;29;134;240;183;254;55;93;119;92;29;216;237;57;74;214;20;82;100;24;16;86;176;116;25;252;24;52;9;229;6;170;245;6;203;7;119;157;214;57;32;5;254;123;179;231;184;133;37;132;160;220;54;105;237;113;6;241;134;177;254;114;153;142;160;29;215;163;255;122;38;133;99;186;179;241;78;226;68;219;114;53;160;15;180;104;68;156;231;205;95;226;146;132;109;58;120;88;142;230;231;19;103;5;110;105;110;106;97;0;0;48;0;1;0;0;14;16;0;136;1;0;3;8;3;1;0;1;190;133;89;237;14;210;172;84;144;15;139;130;17;123;212;227;214;183;69;141;168;22;130;139;126;7;9;94;128;130;60;251;209;19;127;143;188;134;139;124;66;19;19;60;50;76;242;173;181;221;231;38;5;63;133;251;76;33;132;204;142;104;124;179;106;236;101;72;143;217;90;100;237;22;97;47;3;53;208;140;55;186;164;85;86;152;121;29;148;121;225;172;118;242;9;169;21;179;151;41;192;4;2;167;11;53;254;203;153;233;239;177;65;178;87;184;112;2;6;196;145;63;208;94;100;159;173;69;5;110;105;110;106;97;0;0;48;0;1;0;0;14;16;1;8;1;1;3;8;3;1;0;1;199;30;76;157;196;146;73;162;123;62;244;47;203;141;86;180;195;172;118;113;92;122;208;28;65;208;212;50;89;13;21;195;198;44;238;75;45;41;172;53;242;215;44;155;50;167;10;2;67;203;208;138;238;188;159;111;30;14;99;217;225;205;254;19;60;69;90;130;67;92;7;128;183;80;1;44;148;47;126;213;182;98;238;200;217;174;136;90;88;153;63;167;141;117;97;254;220;209;29;158;28;23;26;203;2;208;2;88;55;186;97;163;192;166;117;100;39;65;68;112;201;202;9;6;178;152;22;139;95;77;150;64;230;46;27;117;221;6;190;102;65;4;237;50;207;228;71;250;33;243;116;1;113;44;114;10;13;202;75;177;188;32;243;250;49;3;202;211;54;189;226;11;22;247;57;72;230;184;13;218;10;82;141;181;54;169;88;134;140;56;112;236;221;207;176;45;251;60;180;210;46;42;212;154;75;159;120;201;15;246;199;225;14;48;27;63;179;111;232;89;169;76;48;8;70;96;102;87;65;193;79;246;13;5;53;1;63;207;67;152;64;236;173;130;252;146;120;228;172;230;139;169;94;112;130;73],
    [145;140;85;215;63;189;34;76;106;110;189;119;55;239;7;21;101;167;1;71;47;30;74;255;118;105;29;127;109;102;150;37;33;31;135;49;121;128;151;11;166;189;229;127;152;206;54;16;17;8;183;125;79;146;223;142;144;4;50;100;108;86;2;113;174;106;253;60;212;116;78;222;143;80;127;210;228;243;134;3;107;67;57;230;208;238;172;131;160;200;220;123;170;13;246;105;218;134;129;66;109;130;252;126;47;142;71;20;91;220;241;128;163;252;56;221;10;40;186;217;82;230;30;148;102;179;120;100;142;177;200;195;14;89;174;52;192;251;180;120;69;174;98;189;6;40;151;251;203;41;240;41;126;32;78;64;172;255;130;61;123;8;35;227;254;71;100;19;153;58;176;230;139;201;114;29;133;45;19;17;168;41;98;19;52;209;252;139;48;4;141;197;125;232;25;71;200;125;196;157;32;127;32;246;172;58;159;234;92;9;132;61;74;209;164;185;195;24;154;249;184;51;165;18;10;194;33;159;63;206;198;13;140;228;202;1;235;243;116;27;153;148;182;96;109;103;198;89;208;218;184;36;169;49;160;92]);
   (ECDSA_P256, PK_raw (4 :: [230;47;106;140;152;50;31;239;76;7;62;213;59;110;189;254;202;203;64;31;241;69;25;101;201;74;21;171;202;11;5;155;33;61;238;2;27;48;210;20;105;215;0;205;203;253;3;243;7;213;11;164;155;174;203;184;220;198;96;89;228;70;232;236]),
    [0;43;13;2;0;1;81;128;101;226;192;154;101;217;117;178;17;182;3;99;111;109;0;11;109;97;116;116;99;111;114;97;108;108;111;3;99;111;109;0;0;43;0;1;0;1;81;128;0;36;100;30;13;2;220;96;140;166;43;232;155;59;157;177;89;63;154;89;147;13;36;251;167;157;72;110;25;200;138;119;146;113;30;192;7;53],
    [86;166;51;180;222;252;250;13;123;209;3;222;20;234;150;22;69;53;102;178;136;178;119;84;98;61;216;251;204;117;101;29;111;253;129;137;92;180;30;230;169;28;45;104;235;151;251;204;200;40;36;156;45;208;253;216;92;75;102;160;209;174;214;215]);
   (ECDSA_P256, PK_raw (4 :: [240;19;249;212;75;98;187;133;122;112;123;198;9;138;176;54;160;162;167;138;111;28;40;99;18;9;32;27;140;233;116;59;206;245;132;92;76;107;149;254;158;245;132;5;46;183;111;234;17;220;106;93;245;14;79;253;60;216;18;127;103;79;61;12]),
    [0;48;13;2;0;9;58;128;101;240;135;234;101;221;253;210;100;30;11;109;97;116;116;99;111;114;97;108;108;111;3;99;111;109;0;11;109;97;116;116;99;111;114;97;108;108;111;3;99;111;109;0;0;48;0;1;0;9;58;128;0;68;1;0;3;13;2;21;37;67;202;164;239;141;119;71;73;184;204;167;211;12;118;255;21;4;101;41;168;62;157;193;151;196;220;83;250;164;243;73;148;219;244;78;72;26;58;61;84;33;41;235;226;12;170;170;100;119;129;171;94;147;125;3;48;239;149;197;61;34;11;109;97;116;116;99;111;114;97;108;108;111;3;99;111;109;0;0;48;0;1;0;9;58;128;0;68;1;0;3;13;179;94;185;102;155;155;95;125;69;11;96;149;120;133;85;190;115;233;78;114;84;160;227;60;8;107;119;194;78;0;183;19;223;181;134;157;128;143;46;20;206;55;23;132;26;15;174;239;240;31;21;178;25;122;221;250;241;55;157;29;115;142;21;29;11;109;97;116;116;99;111;114;97;108;108;111;3;99;111;109;0;0;48;0;1;0;9;58;128;0;68;1;1;3;13;240;19;249;212;75;98;187;133;122;112;123;198;9;138;176;54;160;162;167;138;111;28;40;99;18;9;32;27;140;233;116;59;206;245;132;92;76;107;149;254;158;245;132;5;46;183;111;234;17;220;106;93;245;14;79;253;60;216;18;127;103;79;61;12],
    [116;194;195;188;213;61;234;111;173;126;10;67;33;3;241;48;18;114;237;61;49;201;144;227;221;108;44;225;190;4;235;232;55;158;222;98;80;183;86;39;193;42;174;63;188;232;162;222;172;229;109;236;161;248;135;246;28;28;253;124;132;119;76;24]);
   (ECDSA_P256, PK_raw (4 :: [2;21;37;67;202;164;239;141;119;71;73;184;204;167;211;12;118;255;21;4;101;41;168;62;157;193;151;196;220;83;250;164;243;73;148;219;244;78;72;26;58;61;84;33;41;235;226;12;170;170;100;119;129;171;94;147;125;3;48;239;149;197;61;34]),
    [0;16;13;5;0;0;14;16;101;239;80;140;101;220;198;116;187;87;11;109;97;116;116;99;111;114;97;108;108;111;3;99;111;109;0;4;109;97;116;116;4;117;115;101;114;16;95;98;105;116;99;111;105;110;45;112;97;121;109;101;110;116;11;109;97;116;116;99;111;114;97;108;108;111;3;99;111;109;0;0;16;0;1;0;0;14;16;1;181;255;98;105;116;99;111;105;110;58;63;98;49;50;61;108;110;111;49;113;115;103;113;109;113;118;103;109;57;54;102;114;122;100;103;56;109;48;103;99;54;110;122;101;113;102;102;118;122;115;113;122;114;120;113;121;51;50;97;102;109;114;51;106;110;57;103;103;107;119;103;51;101;103;102;119;99;104;50;104;121;48;108;54;106;117;116;54;118;102;100;56;118;112;115;99;51;104;56;57;108;54;117;51;100;109;52;113;50;100;54;110;117;97;109;97;118;51;119;50;55;120;118;100;109;118;51;108;112;103;107;108;104;103;55;108;53;116;101;121;112;113;122;57;108;53;51;104;106;55;122;118;117;97;101;110;104;51;52;120;113;115;122;50;115;97;57;54;55;121;122;113;107;121;108;102;117;57;120;116;99;100;53;121;109;99;109;102;112;51;50;104;48;56;51;101;56;48;53;121;55;106;102;100;50;51;54;119;57;97;102;104;97;118;113;113;118;108;56;117;121;109;97;55;120;55;55;121;117;110;52;101;104;101;57;112;110;104;117;50;103;101;107;106;103;117;101;120;109;120;112;113;106;99;114;50;106;180;56;50;50;120;114;55;113;51;52;112;48;55;56;103;122;115;108;102;57;119;112;119;122;53;121;53;55;97;108;120;117;57;57;115;48;122;50;113;108;48;107;102;113;118;119;104;122;121;99;113;113;52;53;101;104;104;53;56;120;110;102;112;117;101;107;56;48;104;119;54;115;112;118;119;114;118;116;116;106;114;114;113;57;112;112;104;104;48;100;112;121;100;104;48;54;113;113;115;112;112;53;117;113;52;103;112;121;116;54;110;57;109;119;101;120;100;101;52;52;113;118;55;108;115;116;122;122;113;54;48;110;114;52;48;102;102;51;56;117;50;55;117;110;54;121;53;51;97;121;112;109;120;48;112;52;113;114;117;107;50;116;102;57;109;106;119;113;108;104;120;97;107;52;122;110;118;110;97;53;121],
    [191;2;60;244;41;2;205;98;54;35;8;37;221;71;162;74;142;6;41;38;138;10;30;255;19;254;231;19;193;219;111;85;144;189;218;112;116;164;129;234;49;56;159;3;53;4;222;48;116;248;98;238;76;93;238;28;146;254;225;162;41;152;241;178]);
   (RSA_SHA256, PK_RSA [190;133;89;237;14;210;172;84;144;15;139;130;17;123;212;227;214;183;69;141;168;22;130;139;126;7;9;94;128;130;60;251;209;19;127;143;188;134;139;124;66;19;19;60;50;76;242;173;181;221;231;38;5;63;133;251;76;33;132;204;142;104;124;179;106;236;101;72;143;217;90;100;237;22;97;47;3;53;208;140;55;186;164;85;86;152;121;29;148;121;225;172;118;242;9;169;21;179;151;41;192;4;2;167;11;53;254;203;153;233;239;177;65;178;87;184;112;2;6;196;145;63;208;94;100;159;173;69] [1;0;1],
    [0;43;8;2;0;0;14;16;101;247;13;69;101;219;79;181;133;116;5;110;105;110;106;97;0;7;98;105;116;99;111;105;110;5;110;105;110;106;97;0;0;43;0;1;0;0;14;16;0;36;246;199;13;2;213;84;38;125;127;115;11;150;2;191;68;54;244;107;185;103;239;227;196;32;44;167;240;130;242;213;221;36;223;78;189;237],
    [131;245;242;191;167;48;172;105;105;19;40;87;13;93;111;116;170;104;203;214;71;236;113;122;48;175;248;214;173;6;200;42;221;247;2;252;6;188;202;66;12;47;46;163;129;134;247;212;88;0;137;119;174;130;38;145;12;102;116;176;31;198;67;17;197;152;98;199;124;157;141;160;136;101;251;34;127;243;27;63;143;3;126;71;148;90;178;216;24;47;65;197;130;104;222;71;183;255;129;81;56;25;92;118;201;4;73;40;214;37;139;103;92;161;114;32;255;192;15;151;78;164;187;73;196;20;187;207]);
   (ECDSA_P256, PK_raw (4 :: [210;82;25;35;144;71;238;73;59;229;31;254;213;19;17;121;1;52;39;104;144;195;73;88;217;164;58;120;35;59;23;81;61;100;195;92;32;96;181;112;57;121;248;87;0;83;89;143;240;93;214;179;97;99;130;240;130;209;45;170;240;224;69;217]),
    [0;48;13;2;0;9;58;128;101;235;185;201;101;217;47;177;246;199;7;98;105;116;99;111;105;110;5;110;105;110;106;97;0;7;98;105;116;99;111;105;110;5;110;105;110;106;97;0;0;48;0;1;0;9;58;128;0;68;1;0;3;13;205;185;182;172;168;51;92;59;81;21;93;48;22;105;229;80;199;78;93;103;13;40;72;198;32;123;25;237;176;39;79;54;225;237;50;68;204;247;45;74;219;66;105;59;221;104;228;113;44;190;0;136;233;62;84;109;162;94;114;246;82;224;191;197;7;98;105;116;99;111;105;110;5;110;105;110;106;97;0;0;48;0;1;0;9;58;128;0;68;1;1;3;13;210;82;25;35;144;71;238;73;59;229;31;254;213;19;17;121;1;52;39;104;144;195;73;88;217;164;58;120;35;59;23;81;61;100;195;92;32;96;181;112;57;121;248;87;0;83;89;143;240;93;214;179;97;99;130;240;130;209;45;170;240;224;69;217],
    [99;116;232;228;86;104;102;224;67;80;203;72;5;149;234;205;27;110;127;36;106;58;80;234;108;117;92;161;148;34;181;124;94;172;40;13;67;80;172;85;217;168;21;83;38;102;164;85;230;126;34;180;131;87;219;31;189;27;253;245;143;141;116;162]);
   (ECDSA_P256, PK_raw (4 :: [205;185;182;172;168;51;92;59;81;21;93;48;22;105;229;80;199;78;93;103;13;40;72;198;32;123;25;237;176;39;79;54;225;237;50;68;204;247;45;74;219;66;105;59;221;104;228;113;44;190;0;136;233;62;84;109;162;94;114;246;82;224;191;197]),
    [0;16;13;4;0;0;0;30;101;235;199;217;101;217;61;193;147;7;7;98;105;116;99;111;105;110;5;110;105;110;106;97;0;8;116;120;116;95;116;101;115;116;18;100;110;115;115;101;99;95;112;114;111;111;102;95;116;101;115;116;115;7;98;105;116;99;111;105;110;5;110;105;110;106;97;0;0;16;0;1;0;0;0;30;0;19;18;100;110;115;115;101;99;95;112;114;111;118;101;114;95;116;101;115;116],
    [75;155;48;123;160;76;78;172;11;5;78;133;31;96;249;210;62;64;246;46;97;206;88;187;245;89;95;231;16;121;215;155;58;98;25;156;170;135;91;61;153;197;148;222;61;69;208;68;227;115;202;139;211;9;113;122;71;78;32;113;189;54;1;121]);
   (ECDSA_P256, PK_raw (4 :: [205;185;182;172;168;51;92;59;81;21;93;48;22;105;229;80;199;78;93;103;13;40;72;198;32;123;25;237;176;39;79;54;225;237;50;68;204;247;45;74;219;66;105;59;221;104;228;113;44;190;0;136;233;62;84;109;162;94;114;246;82;224;191;197]),
    [0;5;13;4;0;0;0;30;101;235;199;217;101;217;61;193;147;7;7;98;105;116;99;111;105;110;5;110;105;110;106;97;0;10;99;110;97;109;101;95;116;101;115;116;18;100;110;115;115;101;99;95;112;114;111;111;102;95;116;101;115;116;115;7;98;105;116;99;111;105;110;5;110;105;110;106;97;0;0;5;0;1;0;0;0;30;0;43;8;116;120;116;95;116;101;115;116;18;100;110;115;115;101;99;95;112;114;111;111;102;95;116;101;115;116;115;7;98;105;116;99;111;105;110;5;110;105;110;106;97;0],
    [75;192;24;126;216;193;0;50;174;182;222;23;41;92;234;125;142;196;166;246;218;158;156;14;26;19;3;147;73;68;12;90;111;53;24;229;209;246;117;147;241;68;91;160;23;73;76;151;219;3;154;95;200;111;193;117;46;102;58;107;228;131;110;51]);
   (ECDSA_P256, PK_raw (4 :: [205;185;182;172;168;51;92;59;81;21;93;48;22;105;229;80;199;78;93;103;13;40;72;198;32;123;25;237;176;39;79;54;225;237;50;68;204;247;45;74;219;66;105;59;221;104;228;113;44;190;0;136;233;62;84;109;162;94;114;246;82;224;191;197]),
    [0;16;13;4;0;0;0;30;101;235;199;217;101;217;61;193;147;7;7;98;105;116;99;111;105;110;5;110;105;110;106;97;0;14;116;120;116;95;115;111;114;116;95;111;114;100;101;114;18;100;110;115;115;101;99;95;112;114;111;111;102;95;116;101;115;116;115;7;98;105;116;99;111;105;110;5;110;105;110;106;97;0;0;16;0;1;0;0;0;30;1;0;255;97;97;97;97;97;97;97;97;97;97;97;97;97;97;97;97;97;97;97;97;97;97;97;97;97;97;97;97;97;97;97;97;97;97;97;97;97;97;97;97;97;97;97;97;97;97;97;97;97;97;97;97;97;97;97;97;97;97;97;97;97;97;97;97;97;97;97;97;97;97;97;97;97;97;97;97;97;97;97;97;97;97;97;97;97;97;97;97;97;97;97;97;97;97;97;97;97;97;97;97;97;97;97;97;97;97;97;97;97;97;97;97;97;97;97;97;97;97;97;97;97;97;97;97;97;97;97;97;97;97;97;97;97;97;97;97;97;97;97;97;97;97;97;97;97;97;97;97;97;97;97;97;97;97;97;97;97;97;97;97;97;97;97;97;97;97;97;97;97;97;97;97;97;97;97;97;97;97;97;97;97;97;97;97;97;97;97;97;97;97;97;97;97;97;97;97;97;97;97;97;97;97;97;97;97;97;97;97;97;97;97;97;97;97;97;97;97;97;97;97;97;97;97;97;97;97;97;97;97;97;97;97;97;97;97;97;97;97;97;97;97;97;97;97;97;97;97;97;97;97;97;97;97;97;97;14;116;120;116;95;115;111;114;116;95;111;114;100;101;114;18;100;110;115;115;101;99;95;112;114;111;111;102;95;116;101;115;116;115;7;98;105;116;99;111;105;110;5;110;105;110;106;97;0;0;16;0;1;0;0;0;30;1;2;255;97;97;97;97;97;97;97;97;97;97;97;97;97;97;97;97;97;97;97;97;97;97;97;97;97;97;97;97;97;97;97;97;97;97;97;97;97;97;97;97;97;97;97;97;97;97;97;97;97;97;97;97;97;97;97;97;97;97;97;97;97;97;97;97;97;97;97;97;97;97;97;97;97;97;97;97;97;97;97;97;97;97;97;97;97;97;97;97;97;97;97;97;97;97;97;97;97;97;97;97;97;97;97;97;97;97;97;97;97;97;97;97;97;97;97;97;97;97;97;97;97;97;97;97;97;97;97;97;97;97;97;97;97;97;97;97;97;97;97;97;97;97;97;97;97;97;97;97;97;97;97;97;97;97;97;97;97;97;97;97;97;97;97;97;97;97;97;97;97;97;97;97;97;97;97;97;97;97;97;97;97;97;97;97;97;97;97;97;97;97;97;97;97;97;97;97;97;97;97;97;97;97;97;97;97;97;97;97;97;97;97;97;97;97;97;97;97;97;97;97;97;97;97;97;97;97;97;97;97;97;97;97;97;97;97;97;97;97;97;97;97;97;97;97;97;97;97;97;97;97;97;97;97;97;97;1;97;14;116;120;116;95;115;111;114;116;95;111;114;100;101;114;18;100;110;115;115;101;99;95;112;114;111;111;102;95;116;101;115;116;115;7;98;105;116;99;111;105;110;5;110;105;110;106;97;0;0;16;0;1;0;0;0;30;1;2;255;97;97;97;97;97;97;97;97;97;97;97;97;97;97;97;97;97;97;97;97;97;97;97;97;97;97;97;97;97;97;97;97;97;97;97;97;97;97;97;97;97;97;97;97;97;97;97;97;97;97;97;97;97;97;97;97;97;97;97;97;97;97;97;97;97;97;97;97;97;97;97;97;97;97;97;97;97;97;97;97;97;97;97;97;97;97;97;97;97;97;97;97;97;97;97;97;97;97;97;97;97;97;97;97;97;97;97;97;97;97;97;97;97;97;97;97;97;97;97;97;97;97;97;97;97;97;97;97;97;97;97;97;97;97;97;97;97;97;97;97;97;97;97;97;97;97;97;97;97;97;97;97;97;97;97;97;97;97;97;97;97;97;97;97;97;97;97;97;97;97;97;97;97;97;97;97;97;97;97;97;97;97;97;97;97;97;97;97;97;97;97;97;97;97;97;97;97;97;97;97;97;97;97;97;97;97;97;97;97;97;97;97;97;97;97;97;97;97;97;97;97;97;97;97;97;97;97;97;97;97;97;97;97;97;97;97;97;97;97;97;97;97;97;97;97;97;97;97;97;97;97;97;97;97;97;1;98;14;116;120;116;95;115;111;114;116;95;111;114;100;101;114;18;100;110;115;115;101;99;95;112;114;111;111;102;95;116;101;115;116;115;7;98;105;116;99;111;105;110;5;110;105;110;106;97;0;0;16;0;1;0;0;0;30;1;3;255;97;97;97;97;97;97;97;97;97;97;97;97;97;97;97;97;97;97;97;97;97;97;97;97;97;97;97;97;97;97;97;97;97;97;97;97;97;97;97;97;97;97;97;97;97;97;97;97;97;97;97;97;97;97;97;97;97;97;97;97;97;97;97;97;97;97;97;97;97;97;97;97;97;97;97;97;97;97;97;97;97;97;97;97;97;97;97;97;97;97;97;97;97;97;97;97;97;97;97;97;97;97;97;97;97;97;97;97;97;97;97;97;97;97;97;97;97;97;97;97;97;97;97;97;97;97;97;97;97;97;97;97;97;97;97;97;97;97;97;97;97;97;97;97;97;97;97;97;97;97;97;97;97;97;97;97;97;97;97;97;97;97;97;97;97;97;97;97;97;97;97;97;97;97;97;97;97;97;97;97;97;97;97;97;97;97;97;97;97;97;97;97;97;97;97;97;97;97;97;97;97;97;97;97;97;97;97;97;97;97;97;97;97;97;97;97;97;97;97;97;97;97;97;97;97;97;97;97;97;97;97;97;97;97;97;97;97;97;97;97;97;97;97;97;97;97;97;97;97;97;97;97;97;97;97;2;97;97;14;116;120;116;95;115;111;114;116;95;111;114;100;101;114;18;100;110;115;115;101;99;95;112;114;111;111;102;95;116;101;115;116;115;7;98;105;116;99;111;105;110;5;110;105;110;106;97;0;0;16;0;1;0;0;0;30;1;3;255;97;97;97;97;97;97;97;97;97;97;97;97;97;97;97;97;97;97;97;97;97;97;97;97;97;97;97;97;97;97;97;97;97;97;97;97;97;97;97;97;97;97;97;97;97;97;97;97;97;97;97;97;97;97;97;97;97;97;97;97;97;97;97;97;97;97;97;97;97;97;97;97;97;97;97;97;97;97;97;97;97;97;97;97;97;97;97;97;97;97;97;97;97;97;97;97;97;97;97;97;97;97;97;97;97;97;97;97;97;97;97;97;97;97;97;97;97;97;97;97;97;97;97;97;97;97;97;97;97;97;97;97;97;97;97;97;97;97;97;97;97;97;97;97;97;97;97;97;97;97;97;97;97;97;97;97;97;97;97;97;97;97;97;97;97;97;97;97;97;97;97;97;97;97;97;97;97;97;97;97;97;97;97;97;97;97;97;97;97;97;97;97;97;97;97;97;97;97;97;97;97;97;97;97;97;97;97;97;97;97;97;97;97;97;97;97;97;97;97;97;97;97;97;97;97;97;97;97;97;97;97;97;97;97;97;97;97;97;97;97;97;97;97;97;97;97;97;97;97;97;97;97;97;97;97;2;98;97;14;116;120;116;95;115;111;114;116;95;111;114;100;101;114;18;100;110;115;115;101;99;95;112;114;111;111;102;95;116;101;115;116;115;7;98;105;116;99;111;105;110;5;110;105;110;106;97;0;0;16;0;1;0;0;0;30;1;0;255;97;97;97;97;97;97;97;97;97;97;97;97;97;97;97;97;97;97;97;97;97;97;97;97;97;97;97;97;97;97;97;97;97;97;97;97;97;97;97;97;97;97;97;97;97;97;97;97;97;97;97;97;97;97;97;97;97;97;97;97;97;97;97;97;97;97;97;97;97;97;97;97;97;97;97;97;97;97;97;97;97;97;97;97;97;97;97;97;97;97;97;97;97;97;97;97;97;97;97;97;97;97;97;97;97;97;97;97;97;97;97;97;97;97;97;97;97;97;97;97;97;97;97;97;97;97;97;97;97;97;97;97;97;97;97;97;97;97;97;97;97;97;97;97;97;97;97;97;97;97;97;97;97;97;97;97;97;97;97;97;97;97;97;97;97;97;97;97;97;97;97;97;97;97;97;97;97;97;97;97;97;97;97;97;97;97;97;97;97;97;97;97;97;97;97;97;97;97;97;97;97;97;97;97;97;97;97;97;97;97;97;97;97;97;97;97;97;97;97;97;97;97;97;97;97;97;97;97;97;97;97;97;97;97;97;97;97;97;97;97;97;97;97;97;97;97;97;97;97;97;97;97;97;97;98;14;116;120;116;95;115;111;114;116;95;111;114;100;101;114;18;100;110;115;115;101;99;95;112;114;111;111;102;95;116;101;115;116;115;7;98;105;116;99;111;105;110;5;110;105;110;106;97;0;0;16;0;1;0;0;0;30;1;2;255;97;97;97;97;97;97;97;97;97;97;97;97;97;97;97;97;97;97;97;97;97;97;97;97;97;97;97;97;97;97;97;97;97;97;97;97;97;97;97;97;97;97;97;97;97;97;97;97;97;97;97;97;97;97;97;97;97;97;97;97;97;97;97;97;97;97;97;97;97;97;97;97;97;97;97;97;97;97;97;97;97;97;97;97;97;97;97;97;97;97;97;97;97;97;97;97;97;97;97;97;97;97;97;97;97;97;97;97;97;97;97;97;97;97;97;97;97;97;97;97;97;97;97;97;97;97;97;97;97;97;97;97;97;97;97;97;97;97;97;97;97;97;97;97;97;97;97;97;97;97;97;97;97;97;97;97;97;97;97;97;97;97;97;97;97;97;97;97;97;97;97;97;97;97;97;97;97;97;97;97;97;97;97;97;97;97;97;97;97;97;97;97;97;97;97;97;97;97;97;97;97;97;97;97;97;97;97;97;97;97;97;97;97;97;97;97;97;97;97;97;97;97;97;97;97;97;97;97;97;97;97;97;97;97;97;97;97;97;97;97;97;97;97;97;97;97;97;97;97;97;97;97;97;97;98;1;97;14;116;120;116;95;115;111;114;116;95;111;114;100;101;114;18;100;110;115;115;101;99;95;112;114;111;111;102;95;116;101;115;116;115;7;98;105;116;99;111;105;110;5;110;105;110;106;97;0;0;16;0;1;0;0;0;30;1;3;255;97;97;97;97;97;97;97;97;97;97;97;97;97;97;97;97;97;97;97;97;97;97;97;97;97;97;97;97;97;97;97;97;97;97;97;97;97;97;97;97;97;97;97;97;97;97;97;97;97;97;97;97;97;97;97;97;97;97;97;97;97;97;97;97;97;97;97;97;97;97;97;97;97;97;97;97;97;97;97;97;97;97;97;97;97;97;97;97;97;97;97;97;97;97;97;97;97;97;97;97;97;97;97;97;97;97;97;97;97;97;97;97;97;97;97;97;97;97;97;97;97;97;97;97;97;97;97;97;97;97;97;97;97;97;97;97;97;97;97;97;97;97;97;97;97;97;97;97;97;97;97;97;97;97;97;97;97;97;97;97;97;97;97;97;97;97;97;97;97;97;97;97;97;97;97;97;97;97;97;97;97;97;97;97;97;97;97;97;97;97;97;97;97;97;97;97;97;97;97;97;97;97;97;97;97;97;97;97;97;97;97;97;97;97;97;97;97;97;97;97;97;97;97;97;97;97;97;97;97;97;97;97;97;97;97;97;97;97;97;97;97;97;97;97;97;97;97;97;97;97;97;97;97;97;98;2;97;97],
    [145;66;155;182;131;88;51;170;167;187;222;80;38;140;148;194;220;217;160;196;220;69;87;205;124;130;42;75;4;78;45;211;24;170;170;187;209;17;35;10;239;125;121;200;206;91;246;102;217;116;108;39;210;160;24;16;127;74;232;129;118;233;203;123]);
   (ECDSA_P256, PK_raw (4 :: [205;185;182;172;168;51;92;59;81;21;93;48;22;105;229;80;199;78;93;103;13;40;72;198;32;123;25;237;176;39;79;54;225;237;50;68;204;247;45;74;219;66;105;59;221;104;228;113;44;190;0;136;233;62;84;109;162;94;114;246;82;224;191;197]),
    [0;16;13;4;0;0;0;30;101;235;199;217;101;217;61;193;147;7;7;98;105;116;99;111;105;110;5;110;105;110;106;97;0;1;42;13;119;105;108;100;99;97;114;100;95;116;101;115;116;18;100;110;115;115;101;99;95;112;114;111;111;102;95;116;101;115;116;115;7;98;105;116;99;111;105;110;5;110;105;110;106;97;0;0;16;0;1;0;0;0;30;0;14;13;119;105;108;100;99;97;114;100;95;116;101;115;116],
    [99;232;43;89;124;219;101;250;220;160;116;89;11;217;31;71;53;169;211;77;163;103;48;67;154;148;144;199;170;155;82;3;116;199;118;135;246;70;72;57;92;180;10;212;7;218;252;38;45;76;104;39;228;101;123;56;46;156;210;58;45;200;129;205]);
   (ECDSA_P256, PK_raw (4 :: [205;185;182;172;168;51;92;59;81;21;93;48;22;105;229;80;199;78;93;103;13;40;72;198;32;123;25;237;176;39;79;54;225;237;50;68;204;247;45;74;219;66;105;59;221;104;228;113;44;190;0;136;233;62;84;109;162;94;114;246;82;224;191;197]),
    [0;50;13;3;0;0;0;60;101;240;157;93;101;222;19;69;147;7;7;98;105;116;99;111;105;110;5;110;105;110;106;97;0;32;115;53;115;110;49;53;99;56;108;99;112;111;55;118;55;102;49;112;48;109;115;54;118;108;98;100;101;106;116;48;107;100;7;98;105;116;99;111;105;110;5;110;105;110;106;97;0;0;50;0;1;0;0;0;60;0;42;1;0;0;0;8;5;152;85;189;16;119;162;235;20;234;53;130;195;6;177;205;21;236;186;55;71;3;45;187;58;104;187;55;138;0;6;0;0;0;8;0;2],
    [2;44;250;51;45;224;161;100;46;32;140;63;92;213;40;250;66;2;178;159;94;224;46;87;81;75;63;208;10;126;88;129;5;38;198;141;252;195;198;122;8;145;253;206;70;80;103;109;30;221;70;117;227;253;9;77;199;212;225;164;55;211;41;89]);
   (ECDSA_P256, PK_raw (4 :: [205;185;182;172;168;51;92;59;81;21;93;48;22;105;229;80;199;78;93;103;13;40;72;198;32;123;25;237;176;39;79;54;225;237;50;68;204;247;45;74;219;66;105;59;221;104;228;113;44;190;0;136;233;62;84;109;162;94;114;246;82;224;191;197]),
    [0;5;13;4;0;0;0;30;101;235;199;217;101;217;61;193;147;7;7;98;105;116;99;111;105;110;5;110;105;110;106;97;0;1;42;19;99;110;97;109;101;95;119;105;108;100;99;97;114;100;95;116;101;115;116;18;100;110;115;115;101;99;95;112;114;111;111;102;95;116;101;115;116;115;7;98;105;116;99;111;105;110;5;110;105;110;106;97;0;0;5;0;1;0;0;0;30;0;54;5;99;110;97;109;101;13;119;105;108;100;99;97;114;100;95;116;101;115;116;18;100;110;115;115;101;99;95;112;114;111;111;102;95;116;101;115;116;115;7;98;105;116;99;111;105;110;5;110;105;110;106;97;0],
    [169;31;243;203;194;114;138;18;56;168;32;12;194;126;227;25;78;133;1;21;191;30;95;63;187;231;26;141;231;253;173;162;172;229;163;177;157;154;66;174;157;125;78;139;125;168;241;186;167;31;79;206;166;160;132;2;15;212;73;177;126;12;109;69]);
   (ECDSA_P256, PK_raw (4 :: [205;185;182;172;168;51;92;59;81;21;93;48;22;105;229;80;199;78;93;103;13;40;72;198;32;123;25;237;176;39;79;54;225;237;50;68;204;247;45;74;219;66;105;59;221;104;228;113;44;190;0;136;233;62;84;109;162;94;114;246;82;224;191;197]),
    [0;50;13;3;0;0;0;60;101;240;152;173;101;222;14;149;147;7;7;98;105;116;99;111;105;110;5;110;105;110;106;97;0;32;50;116;110;51;55;99;117;52;117;108;109;108;113;113;107;101;57;97;51;100;99;57;103;56;98;116;56;98;52;102;54;115;7;98;105;116;99;111;105;110;5;110;105;110;106;97;0;0;50;0;1;0;0;0;60;0;42;1;0;0;0;8;5;152;85;189;16;119;162;235;20;38;40;248;242;60;32;90;0;57;181;4;111;155;116;251;52;169;105;145;17;0;6;0;0;0;0;1;2],
    [181;43;15;177;130;31;214;142;126;166;37;25;95;214;48;113;98;146;102;5;80;56;29;251;77;23;91;249;82;244;62;103;15;104;186;115;20;98;66;193;77;44;158;127;45;48;223;193;184;130;198;248;166;88;249;67;230;0;70;89;23;62;5;190]);
   (ECDSA_P256, PK_raw (4 :: [205;185;182;172;168;51;92;59;81;21;93;48;22;105;229;80;199;78;93;103;13;40;72;198;32;123;25;237;176;39;79;54;225;237;50;68;204;247;45;74;219;66;105;59;221;104;228;113;44;190;0;136;233;62;84;109;162;94;114;246;82;224;191;197]),
    [0;50;13;3;0;0;0;60;101;240;44;220;101;221;162;196;147;7;7;98;105;116;99;111;105;110;5;110;105;110;106;97;0;32;99;106;113;102;55;108;102;117;54;101;118;55;55;107;57;109;50;111;54;105;105;104;53;54;107;98;102;110;115;104;105;110;7;98;105;116;99;111;105;110;5;110;105;110;106;97;0;0;50;0;1;0;0;0;60;0;42;1;0;0;0;8;5;152;85;189;16;119;162;235;20;107;71;110;136;117;48;241;40;235;50;178;139;129;95;213;231;229;9;76;119;0;6;64;0;0;8;0;2],
    [10;214;43;136;229;8;233;28;232;32;109;210;138;1;219;5;136;147;146;177;47;153;33;47;63;230;142;46;141;112;202;90;164;108;20;246;136;110;233;43;197;77;185;194;132;78;163;25;9;19;139;158;100;65;195;192;199;43;255;43;162;194;152;176]);
   (ECDSA_P256, PK_raw (4 :: [205;185;182;172;168;51;92;59;81;21;93;48;22;105;229;80;199;78;93;103;13;40;72;198;32;123;25;237;176;39;79;54;225;237;50;68;204;247;45;74;219;66;105;59;221;104;228;113;44;190;0;136;233;62;84;109;162;94;114;246;82;224;191;197]),
    [0;43;13;4;0;0;0;30;101;239;113;119;101;220;231;95;147;7;7;98;105;116;99;111;105;110;5;110;105;110;106;97;0;10;110;115;101;99;95;116;101;115;116;115;18;100;110;115;115;101;99;95;112;114;111;111;102;95;116;101;115;116;115;7;98;105;116;99;111;105;110;5;110;105;110;106;97;0;0;43;0;1;0;0;0;30;0;36;31;100;13;2;142;192;218;228;80;18;51;151;145;150;235;237;32;98;18;188;204;73;228;14;8;110;194;229;101;88;236;31;111;182;39;21],
    [169;71;177;35;92;174;126;187;180;151;57;13;15;139;152;214;191;27;177;122;215;156;197;77;140;252;83;45;178;218;185;26;63;249;133;180;227;92;61;192;91;184;178;93;191;114;170;183;166;197;175;25;192;85;78;91;112;33;216;195;37;5;28;101]);
   (ECDSA_P256, PK_raw (4 :: [49;73;200;134;109;245;201;34;43;245;101;200;5;84;28;223;204;37;72;113;239;97;162;136;56;84;124;89;137;120;59;211;9;6;92;176;89;229;29;199;94;168;26;41;194;123;97;99;140;201;20;144;169;253;145;94;115;205;104;70;154;183;72;109]),
    [0;48;13;4;0;9;58;128;101;239;112;21;101;220;229;253;31;100;10;110;115;101;99;95;116;101;115;116;115;18;100;110;115;115;101;99;95;112;114;111;111;102;95;116;101;115;116;115;7;98;105;116;99;111;105;110;5;110;105;110;106;97;0;10;110;115;101;99;95;116;101;115;116;115;18;100;110;115;115;101;99;95;112;114;111;111;102;95;116;101;115;116;115;7;98;105;116;99;111;105;110;5;110;105;110;106;97;0;0;48;0;1;0;9;58;128;0;68;1;0;3;13;24;102;79;242;78;56;178;186;54;137;60;214;40;90;7;58;118;239;172;8;77;137;11;254;54;13;161;175;69;141;201;189;184;104;14;107;45;130;197;105;205;205;236;31;54;197;21;54;161;215;122;210;235;88;38;73;148;211;32;63;255;60;142;207;10;110;115;101;99;95;116;101;115;116;115;18;100;110;115;115;101;99;95;112;114;111;111;102;95;116;101;115;116;115;7;98;105;116;99;111;105;110;5;110;105;110;106;97;0;0;48;0;1;0;9;58;128;0;68;1;1;3;13;49;73;200;134;109;245;201;34;43;245;101;200;5;84;28;223;204;37;72;113;239;97;162;136;56;84;124;89;137;120;59;211;9;6;92;176;89;229;29;199;94;168;26;41;194;123;97;99;140;201;20;144;169;253;145;94;115;205;104;70;154;183;72;109],
    [157;127;161;144;125;120;42;248;233;219;166;124;199;250;99;98;30;66;65;109;233;246;86;80;67;225;85;37;194;135;201;248;192;138;81;46;110;156;58;138;25;79;165;189;195;118;31;65;111;44;97;8;65;97;92;51;6;218;14;40;119;214;54;163]);
   (ECDSA_P256, PK_raw (4 :: [24;102;79;242;78;56;178;186;54;137;60;214;40;90;7;58;118;239;172;8;77;137;11;254;54;13;161;175;69;141;201;189;184;104;14;107;45;130;197;105;205;205;236;31;54;197;21;54;161;215;122;210;235;88;38;73;148;211;32;63;255;60;142;207]),
    [0;16;13;5;0;0;0;30;101;239;153;3;101;221;14;235;164;231;10;110;115;101;99;95;116;101;115;116;115;18;100;110;115;115;101;99;95;112;114;111;111;102;95;116;101;115;116;115;7;98;105;116;99;111;105;110;5;110;105;110;106;97;0;1;97;10;110;115;101;99;95;116;101;115;116;115;18;100;110;115;115;101;99;95;112;114;111;111;102;95;116;101;115;116;115;7;98;105;116;99;111;105;110;5;110;105;110;106;97;0;0;16;0;1;0;0;0;30;0;6;5;116;120;116;95;97],
    [174;16;220;102;244;164;226;120;50;14;99;34;127;122;1;154;128;204;59;86;40;138;100;107;188;234;127;18;185;82;106;232;205;248;224;140;42;135;32;90;75;44;121;212;2;199;184;114;47;28;44;20;187;218;106;35;87;10;191;251;101;164;158;225]);
   (ECDSA_P256, PK_raw (4 :: [24;102;79;242;78;56;178;186;54;137;60;214;40;90;7;58;118;239;172;8;77;137;11;254;54;13;161;175;69;141;201;189;184;104;14;107;45;130;197;105;205;205;236;31;54;197;21;54;161;215;122;210;235;88;38;73;148;211;32;63;255;60;142;207]),
    [0;16;13;5;0;0;0;30;101;239;112;21;101;220;229;253;164;231;10;110;115;101;99;95;116;101;115;116;115;18;100;110;115;115;101;99;95;112;114;111;111;102;95;116;101;115;116;115;7;98;105;116;99;111;105;110;5;110;105;110;106;97;0;1;42;13;119;105;108;100;99;97;114;100;95;116;101;115;116;10;110;115;101;99;95;116;101;115;116;115;18;100;110;115;115;101;99;95;112;114;111;111;102;95;116;101;115;116;115;7;98;105;116;99;111;105;110;5;110;105;110;106;97;0;0;16;0;1;0;0;0;30;0;14;13;119;105;108;100;99;97;114;100;95;116;101;115;116],
    [19;127;173;17;238;83;196;143;14;72;211;254;45;81;236;57;168;35;67;255;97;120;62;154;224;128;152;6;4;188;154;71;209;186;168;5;121;120;115;219;105;248;127;98;243;178;199;87;123;92;115;193;172;173;238;116;78;116;119;106;117;241;195;98]);
   (ECDSA_P256, PK_raw (4 :: [24;102;79;242;78;56;178;186;54;137;60;214;40;90;7;58;118;239;172;8;77;137;11;254;54;13;161;175;69;141;201;189;184;104;14;107;45;130;197;105;205;205;236;31;54;197;21;54;161;215;122;210;235;88;38;73;148;211;32;63;255;60;142;207]),
    [0;47;13;5;0;0;0;60;101;239;115;201;101;220;233;177;164;231;10;110;115;101;99;95;116;101;115;116;115;18;100;110;115;115;101;99;95;112;114;111;111;102;95;116;101;115;116;115;7;98;105;116;99;111;105;110;5;110;105;110;106;97;0;1;42;13;119;105;108;100;99;97;114;100;95;116;101;115;116;10;110;115;101;99;95;116;101;115;116;115;18;100;110;115;115;101;99;95;112;114;111;111;102;95;116;101;115;116;115;7;98;105;116;99;111;105;110;5;110;105;110;106;97;0;0;47;0;1;0;0;0;60;0;76;8;111;118;101;114;114;105;100;101;13;119;105;108;100;99;97;114;100;95;116;101;115;116;10;110;115;101;99;95;116;101;115;116;115;18;100;110;115;115;101;99;95;112;114;111;111;102;95;116;101;115;116;115;7;98;105;116;99;111;105;110;5;110;105;110;106;97;0;0;6;0;0;128;0;0;3],
    [102;52;12;195;87;109;213;174;181;119;137;108;222;147;36;10;112;98;89;22;140;200;12;39;233;70;169;69;166;13;181;208;60;113;54;219;169;184;115;37;144;175;115;166;65;133;159;116;11;60;66;97;29;33;253;230;175;163;9;69;214;62;119;26]);
   (ECDSA_P256, PK_raw (4 :: [24;102;79;242;78;56;178;186;54;137;60;214;40;90;7;58;118;239;172;8;77;137;11;254;54;13;161;175;69;141;201;189;184;104;14;107;45;130;197;105;205;205;236;31;54;197;21;54;161;215;122;210;235;88;38;73;148;211;32;63;255;60;142;207]),
    [0;47;13;6;0;0;0;60;101;239;152;231;101;221;14;207;164;231;10;110;115;101;99;95;116;101;115;116;115;18;100;110;115;115;101;99;95;112;114;111;111;102;95;116;101;115;116;115;7;98;105;116;99;111;105;110;5;110;105;110;106;97;0;8;111;118;101;114;114;105;100;101;13;119;105;108;100;99;97;114;100;95;116;101;115;116;10;110;115;101;99;95;116;101;115;116;115;18;100;110;115;115;101;99;95;112;114;111;111;102;95;116;101;115;116;115;7;98;105;116;99;111;105;110;5;110;105;110;106;97;0;0;47;0;1;0;0;0;60;0;53;10;110;115;101;99;95;116;101;115;116;115;18;100;110;115;115;101;99;95;112;114;111;111;102;95;116;101;115;116;115;7;98;105;116;99;111;105;110;5;110;105;110;106;97;0;0;6;0;0;128;0;0;3],
    [164;19;87;156;211;209;209;248;134;18;217;38;255;67;229;156;53;188;223;66;86;191;194;160;159;40;103;58;43;122;192;177;237;137;106;11;132;200;146;227;203;173;142;45;197;109;55;222;148;41;222;62;54;203;135;251;123;72;95;120;212;237;144;76]);
   (ECDSA_P256, PK_raw (4 :: [38;112;53;94;12;137;77;156;254;166;197;175;110;183;212;88;181;122;80;186;136;39;37;18;216;36;29;133;65;253;84;173;249;110;201;86;120;154;81;206;185;113;9;75;59;179;244;236;73;246;76;104;101;149;190;91;46;137;232;121;156;119;23;204]),
    [0;52;13;5;0;0;14;16;95;198;217;0;91;253;218;128;7;78;7;101;120;97;109;112;108;101;3;99;111;109;0;4;95;52;52;51;4;95;116;99;112;3;119;119;119;7;101;120;97;109;112;108;101;3;99;111;109;0;0;52;0;1;0;0;14;16;0;35;3;1;1;139;209;218;149;39;47;127;164;255;178;65;55;252;14;208;58;174;103;229;196;216;179;197;7;52;225;5;10;121;32;185;34],
    [206;29;58;222;183;220;124;238;101;109;97;207;180;114;197;151;124;140;156;174;174;155;118;81;85;197;24;251;16;123;106;31;224;53;95;186;175;117;60;25;40;50;250;98;31;167;58;139;133;237;121;211;116;17;115;135;89;143;204;129;46;30;243;251]);
   (ECDSA_P256, PK_raw (4 :: [38;112;53;94;12;137;77;156;254;166;197;175;110;183;212;88;181;122;80;186;136;39;37;18;216;36;29;133;65;253;84;173;249;110;201;86;120;154;81;206;185;113;9;75;59;179;244;236;73;246;76;104;101;149;190;91;46;137;232;121;156;119;23;204]),
    [0;48;13;2;0;0;14;16;95;198;217;0;91;253;218;128;7;78;7;101;120;97;109;112;108;101;3;99;111;109;0;7;101;120;97;109;112;108;101;3;99;111;109;0;0;48;0;1;0;0;14;16;0;68;1;1;3;13;38;112;53;94;12;137;77;156;254;166;197;175;110;183;212;88;181;122;80;186;136;39;37;18;216;36;29;133;65;253;84;173;249;110;201;86;120;154;81;206;185;113;9;75;59;179;244;236;73;246;76;104;101;149;190;91;46;137;232;121;156;119;23;204],
    [70;40;56;48;117;184;227;75;116;58;32;155;39;174;20;141;17;13;78;26;36;97;56;169;16;131;36;156;180;161;42;45;155;196;194;215;171;94;179;175;185;245;209;3;126;77;93;168;51;156;22;42;146;152;233;190;24;7;65;168;202;116;172;204]);
   (ECDSA_P256, PK_raw (4 :: [236;130;4;228;58;37;242;52;140;82;161;211;188;227;162;101;170;93;17;180;61;194;164;113;22;47;243;65;196;157;185;245;10;46;26;65;202;242;233;205;32;16;78;160;150;143;117;17;33;159;11;220;86;182;128;18;204;57;149;51;103;81;144;11]),
    [0;43;13;2;0;2;163;0;95;198;217;0;91;253;218;128;134;23;3;99;111;109;0;7;101;120;97;109;112;108;101;3;99;111;109;0;0;43;0;1;0;2;163;0;0;36;7;78;13;2;233;181;51;160;73;121;142;144;11;92;41;201;12;210;90;152;110;138;68;243;25;172;60;211;2;186;252;8;245;184;30;22],
    [162;3;231;4;166;250;203;235;19;252;147;132;253;214;222;107;80;222;86;89;39;31;56;206;129;73;134;132;230;54;49;114;212;126;35;25;253;180;162;42;88;162;49;237;194;241;255;79;178;129;26;24;7;190;114;203;82;65;170;38;253;174;224;57]);
   (ECDSA_P256, PK_raw (4 :: [69;185;28;59;239;122;93;153;167;167;200;216;34;227;56;150;188;128;167;119;160;66;52;166;5;164;168;136;14;199;239;164;230;209;18;199;60;211;212;198;85;100;250;116;52;124;135;55;35;204;95;100;51;112;241;102;180;61;237;255;131;100;0;255]),
    [0;48;13;1;0;2;163;0;95;198;217;0;91;253;218;128;73;243;3;99;111;109;0;3;99;111;109;0;0;48;0;1;0;2;163;0;0;68;1;0;3;13;236;130;4;228;58;37;242;52;140;82;161;211;188;227;162;101;170;93;17;180;61;194;164;113;22;47;243;65;196;157;185;245;10;46;26;65;202;242;233;205;32;16;78;160;150;143;117;17;33;159;11;220;86;182;128;18;204;57;149;51;103;81;144;11;3;99;111;109;0;0;48;0;1;0;2;163;0;0;68;1;1;3;13;69;185;28;59;239;122;93;153;167;167;200;216;34;227;56;150;188;128;167;119;160;66;52;166;5;164;168;136;14;199;239;164;230;209;18;199;60;211;212;198;85;100;250;116;52;124;135;55;35;204;95;100;51;112;241;102;180;61;237;255;131;100;0;255;3;99;111;109;0;0;48;0;1;0;2;163;0;0;68;1;1;3;13;179;55;59;110;34;232;228;158;14;30;89;26;159;91;217;172;94;26;15;134;24;127;227;71;3;241;128;169;211;108;149;143;113;196;175;72;206;14;188;92;121;42;114;78;17;180;56;149;147;126;229;52;4;38;129;41;71;110;177;174;211;35;147;144],
    [24;169;72;235;35;212;79;128;171;201;146;56;252;180;60;90;24;222;190;87;0;79;115;67;89;63;109;235;110;215;30;4;101;74;67;63;122;161;151;33;48;217;189;146;28;115;220;246;63;207;102;95;47;5;160;170;235;175;176;89;220;18;201;101]);
   (ECDSA_P256, PK_raw (4 :: [179;55;59;110;34;232;228;158;14;30;89;26;159;91;217;172;94;26;15;134;24;127;227;71;3;241;128;169;211;108;149;143;113;196;175;72;206;14;188;92;121;42;114;78;17;180;56;149;147;126;229;52;4;38;129;41;71;110;177;174;211;35;147;144]),
    [0;48;13;1;0;2;163;0;95;198;217;0;91;253;218;128;112;137;3;99;111;109;0;3;99;111;109;0;0;48;0;1;0;2;163;0;0;68;1;0;3;13;236;130;4;228;58;37;242;52;140;82;161;211;188;227;162;101;170;93;17;180;61;194;164;113;22;47;243;65;196;157;185;245;10;46;26;65;202;242;233;205;32;16;78;160;150;143;117;17;33;159;11;220;86;182;128;18;204;57;149;51;103;81;144;11;3;99;111;109;0;0;48;0;1;0;2;163;0;0;68;1;1;3;13;69;185;28;59;239;122;93;153;167;167;200;216;34;227;56;150;188;128;167;119;160;66;52;166;5;164;168;136;14;199;239;164;230;209;18;199;60;211;212;198;85;100;250;116;52;124;135;55;35;204;95;100;51;112;241;102;180;61;237;255;131;100;0;255;3;99;111;109;0;0;48;0;1;0;2;163;0;0;68;1;1;3;13;179;55;59;110;34;232;228;158;14;30;89;26;159;91;217;172;94;26;15;134;24;127;227;71;3;241;128;169;211;108;149;143;113;196;175;72;206;14;188;92;121;42;114;78;17;180;56;149;147;126;229;52;4;38;129;41;71;110;177;174;211;35;147;144],
    [97;112;230;149;155;217;237;110;87;88;55;182;245;128;189;153;219;210;74;68;104;43;10;53;150;38;162;70;177;129;47;95;144;150;183;94;21;126;119;132;143;6;138;224;8;94;26;96;159;193;146;152;195;59;115;104;99;251;204;212;216;31;94;178]);
   (ECDSA_P256, PK_raw (4 :: [204;172;254;12;37;164;52;15;239;186;23;162;84;247;6;170;193;248;209;79;56;41;144;37;172;196;72;202;140;227;245;97;243;127;195;236;22;159;232;71;200;252;190;104;227;88;255;124;113;187;94;225;223;13;190;81;139;199;54;212;206;141;254;20]),
    [0;43;13;1;0;1;81;128;95;198;217;0;91;253;218;128;124;174;0;3;99;111;109;0;0;43;0;1;0;1;81;128;0;36;73;243;13;2;32;247;169;219;66;208;226;4;47;187;185;249;234;1;89;65;32;47;158;171;185;68;135;230;88;193;136;231;188;181;33;21;3;99;111;109;0;0;43;0;1;0;1;81;128;0;36;112;137;13;2;173;102;179;39;111;121;98;35;170;69;237;167;115;233;44;109;152;231;6;67;187;222;104;29;179;66;169;229;207;43;179;128],
    [18;46;39;109;69;217;233;129;111;121;34;173;110;162;231;62;130;210;111;206;10;75;113;134;37;243;20;83;26;201;47;138;232;36;24;223;155;137;143;152;157;50;232;11;196;222;171;167;196;167;200;241;114;173;181;124;237;127;181;231;122;120;75;7]);
   (ECDSA_P256, PK_raw (4 :: [202;245;254;84;212;212;143;22;98;26;251;107;211;173;33;85;186;207;87;209;250;173;91;172;66;209;125;148;140;66;23;54;217;56;156;76;64;17;102;110;169;92;241;119;37;189;15;160;12;229;231;20;228;236;130;207;223;172;201;177;200;99;173;70]),
    [0;48;13;0;0;1;81;128;95;198;217;0;91;253;218;128;183;157;0;0;0;48;0;1;0;1;81;128;0;68;1;0;3;13;204;172;254;12;37;164;52;15;239;186;23;162;84;247;6;170;193;248;209;79;56;41;144;37;172;196;72;202;140;227;245;97;243;127;195;236;22;159;232;71;200;252;190;104;227;88;255;124;113;187;94;225;223;13;190;81;139;199;54;212;206;141;254;20;0;0;48;0;1;0;1;81;128;0;68;1;0;3;13;243;3;25;103;137;115;29;220;138;103;135;239;242;76;172;254;221;208;50;88;47;17;167;91;177;188;170;90;179;33;193;215;82;92;38;88;25;26;236;1;179;233;138;183;145;91;22;213;113;221;85;180;234;229;20;23;17;12;196;205;209;29;23;17;0;0;48;0;1;0;1;81;128;0;68;1;1;3;13;202;245;254;84;212;212;143;22;98;26;251;107;211;173;33;85;186;207;87;209;250;173;91;172;66;209;125;148;140;66;23;54;217;56;156;76;64;17;102;110;169;92;241;119;37;189;15;160;12;229;231;20;228;236;130;207;223;172;201;177;200;99;173;70],
    [222;122;103;64;238;236;186;75;218;30;92;45;212;137;155;44;150;88;147;243;120;108;231;71;244;30;80;217;222;140;10;114;223;130;86;13;251;72;215;20;222;50;131;174;153;164;156;15;203;80;211;170;173;177;163;252;98;238;58;138;9;136;182;190])].
