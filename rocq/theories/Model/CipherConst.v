(** Constant tables of the block ciphers (include/Encryptions/*_Const.h).  Arrays declared
    longer than their initialiser are padded with zeros by C++; those entries are never read
    and are left out here. *)
From Verif Require Export Model.Base.

(** AES_Subbytes, AES_Const.h 28-43. *)
Definition AES_Subbytes : list N :=
  [0x63; 0x7C; 0x77; 0x7B; 0xF2; 0x6B; 0x6F; 0xC5; 0x30; 0x01; 0x67; 0x2B; 0xFE; 0xD7; 0xAB; 0x76;
   0xCA; 0x82; 0xC9; 0x7D; 0xFA; 0x59; 0x47; 0xF0; 0xAD; 0xD4; 0xA2; 0xAF; 0x9C; 0xA4; 0x72; 0xC0;
   0xB7; 0xFD; 0x93; 0x26; 0x36; 0x3F; 0xF7; 0xCC; 0x34; 0xA5; 0xE5; 0xF1; 0x71; 0xD8; 0x31; 0x15;
   0x04; 0xC7; 0x23; 0xC3; 0x18; 0x96; 0x05; 0x9A; 0x07; 0x12; 0x80; 0xE2; 0xEB; 0x27; 0xB2; 0x75;
   0x09; 0x83; 0x2C; 0x1A; 0x1B; 0x6E; 0x5A; 0xA0; 0x52; 0x3B; 0xD6; 0xB3; 0x29; 0xE3; 0x2F; 0x84;
   0x53; 0xD1; 0x00; 0xED; 0x20; 0xFC; 0xB1; 0x5B; 0x6A; 0xCB; 0xBE; 0x39; 0x4A; 0x4C; 0x58; 0xCF;
   0xD0; 0xEF; 0xAA; 0xFB; 0x43; 0x4D; 0x33; 0x85; 0x45; 0xF9; 0x02; 0x7F; 0x50; 0x3C; 0x9F; 0xA8;
   0x51; 0xA3; 0x40; 0x8F; 0x92; 0x9D; 0x38; 0xF5; 0xBC; 0xB6; 0xDA; 0x21; 0x10; 0xFF; 0xF3; 0xD2;
   0xCD; 0x0C; 0x13; 0xEC; 0x5F; 0x97; 0x44; 0x17; 0xC4; 0xA7; 0x7E; 0x3D; 0x64; 0x5D; 0x19; 0x73;
   0x60; 0x81; 0x4F; 0xDC; 0x22; 0x2A; 0x90; 0x88; 0x46; 0xEE; 0xB8; 0x14; 0xDE; 0x5E; 0x0B; 0xDB;
   0xE0; 0x32; 0x3A; 0x0A; 0x49; 0x06; 0x24; 0x5C; 0xC2; 0xD3; 0xAC; 0x62; 0x91; 0x95; 0xE4; 0x79;
   0xE7; 0xC8; 0x37; 0x6D; 0x8D; 0xD5; 0x4E; 0xA9; 0x6C; 0x56; 0xF4; 0xEA; 0x65; 0x7A; 0xAE; 0x08;
   0xBA; 0x78; 0x25; 0x2E; 0x1C; 0xA6; 0xB4; 0xC6; 0xE8; 0xDD; 0x74; 0x1F; 0x4B; 0xBD; 0x8B; 0x8A;
   0x70; 0x3E; 0xB5; 0x66; 0x48; 0x03; 0xF6; 0x0E; 0x61; 0x35; 0x57; 0xB9; 0x86; 0xC1; 0x1D; 0x9E;
   0xE1; 0xF8; 0x98; 0x11; 0x69; 0xD9; 0x8E; 0x94; 0x9B; 0x1E; 0x87; 0xE9; 0xCE; 0x55; 0x28; 0xDF;
   0x8C; 0xA1; 0x89; 0x0D; 0xBF; 0xE6; 0x42; 0x68; 0x41; 0x99; 0x2D; 0x0F; 0xB0; 0x54; 0xBB; 0x16].
(** AES_Inv_Subbytes, AES_Const.h 45-60. *)
Definition AES_Inv_Subbytes : list N :=
  [0x52; 0x09; 0x6A; 0xD5; 0x30; 0x36; 0xA5; 0x38; 0xBF; 0x40; 0xA3; 0x9E; 0x81; 0xF3; 0xD7; 0xFB;
   0x7C; 0xE3; 0x39; 0x82; 0x9B; 0x2F; 0xFF; 0x87; 0x34; 0x8E; 0x43; 0x44; 0xC4; 0xDE; 0xE9; 0xCB;
   0x54; 0x7B; 0x94; 0x32; 0xA6; 0xC2; 0x23; 0x3D; 0xEE; 0x4C; 0x95; 0x0B; 0x42; 0xFA; 0xC3; 0x4E;
   0x08; 0x2E; 0xA1; 0x66; 0x28; 0xD9; 0x24; 0xB2; 0x76; 0x5B; 0xA2; 0x49; 0x6D; 0x8B; 0xD1; 0x25;
   0x72; 0xF8; 0xF6; 0x64; 0x86; 0x68; 0x98; 0x16; 0xD4; 0xA4; 0x5C; 0xCC; 0x5D; 0x65; 0xB6; 0x92;
   0x6C; 0x70; 0x48; 0x50; 0xFD; 0xED; 0xB9; 0xDA; 0x5E; 0x15; 0x46; 0x57; 0xA7; 0x8D; 0x9D; 0x84;
   0x90; 0xD8; 0xAB; 0x00; 0x8C; 0xBC; 0xD3; 0x0A; 0xF7; 0xE4; 0x58; 0x05; 0xB8; 0xB3; 0x45; 0x06;
   0xD0; 0x2C; 0x1E; 0x8F; 0xCA; 0x3F; 0x0F; 0x02; 0xC1; 0xAF; 0xBD; 0x03; 0x01; 0x13; 0x8A; 0x6B;
   0x3A; 0x91; 0x11; 0x41; 0x4F; 0x67; 0xDC; 0xEA; 0x97; 0xF2; 0xCF; 0xCE; 0xF0; 0xB4; 0xE6; 0x73;
   0x96; 0xAC; 0x74; 0x22; 0xE7; 0xAD; 0x35; 0x85; 0xE2; 0xF9; 0x37; 0xE8; 0x1C; 0x75; 0xDF; 0x6E;
   0x47; 0xF1; 0x1A; 0x71; 0x1D; 0x29; 0xC5; 0x89; 0x6F; 0xB7; 0x62; 0x0E; 0xAA; 0x18; 0xBE; 0x1B;
   0xFC; 0x56; 0x3E; 0x4B; 0xC6; 0xD2; 0x79; 0x20; 0x9A; 0xDB; 0xC0; 0xFE; 0x78; 0xCD; 0x5A; 0xF4;
   0x1F; 0xDD; 0xA8; 0x33; 0x88; 0x07; 0xC7; 0x31; 0xB1; 0x12; 0x10; 0x59; 0x27; 0x80; 0xEC; 0x5F;
   0x60; 0x51; 0x7F; 0xA9; 0x19; 0xB5; 0x4A; 0x0D; 0x2D; 0xE5; 0x7A; 0x9F; 0x93; 0xC9; 0x9C; 0xEF;
   0xA0; 0xE0; 0x3B; 0x4D; 0xAE; 0x2A; 0xF5; 0xB0; 0xC8; 0xEB; 0xBB; 0x3C; 0x83; 0x53; 0x99; 0x61;
   0x17; 0x2B; 0x04; 0x7E; 0xBA; 0x77; 0xD6; 0x26; 0xE1; 0x69; 0x14; 0x63; 0x55; 0x21; 0x0C; 0x7D].
(** Blowfish_P, Blowfish_Const.h 28-36. *)
Definition Blowfish_P : list N :=
  [0x243F6A88; 0x85A308D3; 0x13198A2E; 0x03707344; 0xA4093822; 0x299F31D0; 0x082EFA98; 0xEC4E6C89;
   0x452821E6; 0x38D01377; 0xBE5466CF; 0x34E90C6C; 0xC0AC29B7; 0xC97C50DD; 0x3F84D5B5; 0xB5470917;
   0x9216D5D9; 0x8979FB1B].
(** Blowfish_SBOX, Blowfish_Const.h 38-165. *)
Definition Blowfish_SBOX : list (list N) :=
  [[0xD1310BA6; 0x98DFB5AC; 0x2FFD72DB; 0xD01ADFB7; 0xB8E1AFED; 0x6A267E96; 0xBA7C9045; 0xF12C7F99;
    0x24A19947; 0xB3916CF7; 0x0801F2E2; 0x858EFC16; 0x636920D8; 0x71574E69; 0xA458FEA3; 0xF4933D7E;
    0x0D95748F; 0x728EB658; 0x718BCD58; 0x82154AEE; 0x7B54A41D; 0xC25A59B5; 0x9C30D539; 0x2AF26013;
    0xC5D1B023; 0x286085F0; 0xCA417918; 0xB8DB38EF; 0x8E79DCB0; 0x603A180E; 0x6C9E0E8B; 0xB01E8A3E;
    0xD71577C1; 0xBD314B27; 0x78AF2FDA; 0x55605C60; 0xE65525F3; 0xAA55AB94; 0x57489862; 0x63E81440;
    0x55CA396A; 0x2AAB10B6; 0xB4CC5C34; 0x1141E8CE; 0xA15486AF; 0x7C72E993; 0xB3EE1411; 0x636FBC2A;
    0x2BA9C55D; 0x741831F6; 0xCE5C3E16; 0x9B87931E; 0xAFD6BA33; 0x6C24CF5C; 0x7A325381; 0x28958677;
    0x3B8F4898; 0x6B4BB9AF; 0xC4BFE81B; 0x66282193; 0x61D809CC; 0xFB21A991; 0x487CAC60; 0x5DEC8032;
    0xEF845D5D; 0xE98575B1; 0xDC262302; 0xEB651B88; 0x23893E81; 0xD396ACC5; 0x0F6D6FF3; 0x83F44239;
    0x2E0B4482; 0xA4842004; 0x69C8F04A; 0x9E1F9B5E; 0x21C66842; 0xF6E96C9A; 0x670C9C61; 0xABD388F0;
    0x6A51A0D2; 0xD8542F68; 0x960FA728; 0xAB5133A3; 0x6EEF0B6C; 0x137A3BE4; 0xBA3BF050; 0x7EFB2A98;
    0xA1F1651D; 0x39AF0176; 0x66CA593E; 0x82430E88; 0x8CEE8619; 0x456F9FB4; 0x7D84A5C3; 0x3B8B5EBE;
    0xE06F75D8; 0x85C12073; 0x401A449F; 0x56C16AA6; 0x4ED3AA62; 0x363F7706; 0x1BFEDF72; 0x429B023D;
    0x37D0D724; 0xD00A1248; 0xDB0FEAD3; 0x49F1C09B; 0x075372C9; 0x80991B7B; 0x25D479D8; 0xF6E8DEF7;
    0xE3FE501A; 0xB6794C3B; 0x976CE0BD; 0x04C006BA; 0xC1A94FB6; 0x409F60C4; 0x5E5C9EC2; 0x196A2463;
    0x68FB6FAF; 0x3E6C53B5; 0x1339B2EB; 0x3B52EC6F; 0x6DFC511F; 0x9B30952C; 0xCC814544; 0xAF5EBD09;
    0xBEE3D004; 0xDE334AFD; 0x660F2807; 0x192E4BB3; 0xC0CBA857; 0x45C8740F; 0xD20B5F39; 0xB9D3FBDB;
    0x5579C0BD; 0x1A60320A; 0xD6A100C6; 0x402C7279; 0x679F25FE; 0xFB1FA3CC; 0x8EA5E9F8; 0xDB3222F8;
    0x3C7516DF; 0xFD616B15; 0x2F501EC8; 0xAD0552AB; 0x323DB5FA; 0xFD238760; 0x53317B48; 0x3E00DF82;
    0x9E5C57BB; 0xCA6F8CA0; 0x1A87562E; 0xDF1769DB; 0xD542A8F6; 0x287EFFC3; 0xAC6732C6; 0x8C4F5573;
    0x695B27B0; 0xBBCA58C8; 0xE1FFA35D; 0xB8F011A0; 0x10FA3D98; 0xFD2183B8; 0x4AFCB56C; 0x2DD1D35B;
    0x9A53E479; 0xB6F84565; 0xD28E49BC; 0x4BFB9790; 0xE1DDF2DA; 0xA4CB7E33; 0x62FB1341; 0xCEE4C6E8;
    0xEF20CADA; 0x36774C01; 0xD07E9EFE; 0x2BF11FB4; 0x95DBDA4D; 0xAE909198; 0xEAAD8E71; 0x6B93D5A0;
    0xD08ED1D0; 0xAFC725E0; 0x8E3C5B2F; 0x8E7594B7; 0x8FF6E2FB; 0xF2122B64; 0x8888B812; 0x900DF01C;
    0x4FAD5EA0; 0x688FC31C; 0xD1CFF191; 0xB3A8C1AD; 0x2F2F2218; 0xBE0E1777; 0xEA752DFE; 0x8B021FA1;
    0xE5A0CC0F; 0xB56F74E8; 0x18ACF3D6; 0xCE89E299; 0xB4A84FE0; 0xFD13E0B7; 0x7CC43B81; 0xD2ADA8D9;
    0x165FA266; 0x80957705; 0x93CC7314; 0x211A1477; 0xE6AD2065; 0x77B5FA86; 0xC75442F5; 0xFB9D35CF;
    0xEBCDAF0C; 0x7B3E89A0; 0xD6411BD3; 0xAE1E7E49; 0x00250E2D; 0x2071B35E; 0x226800BB; 0x57B8E0AF;
    0x2464369B; 0xF009B91E; 0x5563911D; 0x59DFA6AA; 0x78C14389; 0xD95A537F; 0x207D5BA2; 0x02E5B9C5;
    0x83260376; 0x6295CFA9; 0x11C81968; 0x4E734A41; 0xB3472DCA; 0x7B14A94A; 0x1B510052; 0x9A532915;
    0xD60F573F; 0xBC9BC6E4; 0x2B60A476; 0x81E67400; 0x08BA6FB5; 0x571BE91F; 0xF296EC6B; 0x2A0DD915;
    0xB6636521; 0xE7B9F9B6; 0xFF34052E; 0xC5855664; 0x53B02D5D; 0xA99F8FA1; 0x08BA4799; 0x6E85076A];
   [0x4B7A70E9; 0xB5B32944; 0xDB75092E; 0xC4192623; 0xAD6EA6B0; 0x49A7DF7D; 0x9CEE60B8; 0x8FEDB266;
    0xECAA8C71; 0x699A17FF; 0x5664526C; 0xC2B19EE1; 0x193602A5; 0x75094C29; 0xA0591340; 0xE4183A3E;
    0x3F54989A; 0x5B429D65; 0x6B8FE4D6; 0x99F73FD6; 0xA1D29C07; 0xEFE830F5; 0x4D2D38E6; 0xF0255DC1;
    0x4CDD2086; 0x8470EB26; 0x6382E9C6; 0x021ECC5E; 0x09686B3F; 0x3EBAEFC9; 0x3C971814; 0x6B6A70A1;
    0x687F3584; 0x52A0E286; 0xB79C5305; 0xAA500737; 0x3E07841C; 0x7FDEAE5C; 0x8E7D44EC; 0x5716F2B8;
    0xB03ADA37; 0xF0500C0D; 0xF01C1F04; 0x0200B3FF; 0xAE0CF51A; 0x3CB574B2; 0x25837A58; 0xDC0921BD;
    0xD19113F9; 0x7CA92FF6; 0x94324773; 0x22F54701; 0x3AE5E581; 0x37C2DADC; 0xC8B57634; 0x9AF3DDA7;
    0xA9446146; 0x0FD0030E; 0xECC8C73E; 0xA4751E41; 0xE238CD99; 0x3BEA0E2F; 0x3280BBA1; 0x183EB331;
    0x4E548B38; 0x4F6DB908; 0x6F420D03; 0xF60A04BF; 0x2CB81290; 0x24977C79; 0x5679B072; 0xBCAF89AF;
    0xDE9A771F; 0xD9930810; 0xB38BAE12; 0xDCCF3F2E; 0x5512721F; 0x2E6B7124; 0x501ADDE6; 0x9F84CD87;
    0x7A584718; 0x7408DA17; 0xBC9F9ABC; 0xE94B7D8C; 0xEC7AEC3A; 0xDB851DFA; 0x63094366; 0xC464C3D2;
    0xEF1C1847; 0x3215D908; 0xDD433B37; 0x24C2BA16; 0x12A14D43; 0x2A65C451; 0x50940002; 0x133AE4DD;
    0x71DFF89E; 0x10314E55; 0x81AC77D6; 0x5F11199B; 0x043556F1; 0xD7A3C76B; 0x3C11183B; 0x5924A509;
    0xF28FE6ED; 0x97F1FBFA; 0x9EBABF2C; 0x1E153C6E; 0x86E34570; 0xEAE96FB1; 0x860E5E0A; 0x5A3E2AB3;
    0x771FE71C; 0x4E3D06FA; 0x2965DCB9; 0x99E71D0F; 0x803E89D6; 0x5266C825; 0x2E4CC978; 0x9C10B36A;
    0xC6150EBA; 0x94E2EA78; 0xA5FC3C53; 0x1E0A2DF4; 0xF2F74EA7; 0x361D2B3D; 0x1939260F; 0x19C27960;
    0x5223A708; 0xF71312B6; 0xEBADFE6E; 0xEAC31F66; 0xE3BC4595; 0xA67BC883; 0xB17F37D1; 0x018CFF28;
    0xC332DDEF; 0xBE6C5AA5; 0x65582185; 0x68AB9802; 0xEECEA50F; 0xDB2F953B; 0x2AEF7DAD; 0x5B6E2F84;
    0x1521B628; 0x29076170; 0xECDD4775; 0x619F1510; 0x13CCA830; 0xEB61BD96; 0x0334FE1E; 0xAA0363CF;
    0xB5735C90; 0x4C70A239; 0xD59E9E0B; 0xCBAADE14; 0xEECC86BC; 0x60622CA7; 0x9CAB5CAB; 0xB2F3846E;
    0x648B1EAF; 0x19BDF0CA; 0xA02369B9; 0x655ABB50; 0x40685A32; 0x3C2AB4B3; 0x319EE9D5; 0xC021B8F7;
    0x9B540B19; 0x875FA099; 0x95F7997E; 0x623D7DA8; 0xF837889A; 0x97E32D77; 0x11ED935F; 0x16681281;
    0x0E358829; 0xC7E61FD6; 0x96DEDFA1; 0x7858BA99; 0x57F584A5; 0x1B227263; 0x9B83C3FF; 0x1AC24696;
    0xCDB30AEB; 0x532E3054; 0x8FD948E4; 0x6DBC3128; 0x58EBF2EF; 0x34C6FFEA; 0xFE28ED61; 0xEE7C3C73;
    0x5D4A14D9; 0xE864B7E3; 0x42105D14; 0x203E13E0; 0x45EEE2B6; 0xA3AAABEA; 0xDB6C4F15; 0xFACB4FD0;
    0xC742F442; 0xEF6ABBB5; 0x654F3B1D; 0x41CD2105; 0xD81E799E; 0x86854DC7; 0xE44B476A; 0x3D816250;
    0xCF62A1F2; 0x5B8D2646; 0xFC8883A0; 0xC1C7B6A3; 0x7F1524C3; 0x69CB7492; 0x47848A0B; 0x5692B285;
    0x095BBF00; 0xAD19489D; 0x1462B174; 0x23820E00; 0x58428D2A; 0x0C55F5EA; 0x1DADF43E; 0x233F7061;
    0x3372F092; 0x8D937E41; 0xD65FECF1; 0x6C223BDB; 0x7CDE3759; 0xCBEE7460; 0x4085F2A7; 0xCE77326E;
    0xA6078084; 0x19F8509E; 0xE8EFD855; 0x61D99735; 0xA969A7AA; 0xC50C06C2; 0x5A04ABFC; 0x800BCADC;
    0x9E447A2E; 0xC3453484; 0xFDD56705; 0x0E1E9EC9; 0xDB73DBD3; 0x105588CD; 0x675FDA79; 0xE3674340;
    0xC5C43465; 0x713E38D8; 0x3D28F89E; 0xF16DFF20; 0x153E21E7; 0x8FB03D4A; 0xE6E39F2B; 0xDB83ADF7];
   [0xE93D5A68; 0x948140F7; 0xF64C261C; 0x94692934; 0x411520F7; 0x7602D4F7; 0xBCF46B2E; 0xD4A20068;
    0xD4082471; 0x3320F46A; 0x43B7D4B7; 0x500061AF; 0x1E39F62E; 0x97244546; 0x14214F74; 0xBF8B8840;
    0x4D95FC1D; 0x96B591AF; 0x70F4DDD3; 0x66A02F45; 0xBFBC09EC; 0x03BD9785; 0x7FAC6DD0; 0x31CB8504;
    0x96EB27B3; 0x55FD3941; 0xDA2547E6; 0xABCA0A9A; 0x28507825; 0x530429F4; 0x0A2C86DA; 0xE9B66DFB;
    0x68DC1462; 0xD7486900; 0x680EC0A4; 0x27A18DEE; 0x4F3FFEA2; 0xE887AD8C; 0xB58CE006; 0x7AF4D6B6;
    0xAACE1E7C; 0xD3375FEC; 0xCE78A399; 0x406B2A42; 0x20FE9E35; 0xD9F385B9; 0xEE39D7AB; 0x3B124E8B;
    0x1DC9FAF7; 0x4B6D1856; 0x26A36631; 0xEAE397B2; 0x3A6EFA74; 0xDD5B4332; 0x6841E7F7; 0xCA7820FB;
    0xFB0AF54E; 0xD8FEB397; 0x454056AC; 0xBA489527; 0x55533A3A; 0x20838D87; 0xFE6BA9B7; 0xD096954B;
    0x55A867BC; 0xA1159A58; 0xCCA92963; 0x99E1DB33; 0xA62A4A56; 0x3F3125F9; 0x5EF47E1C; 0x9029317C;
    0xFDF8E802; 0x04272F70; 0x80BB155C; 0x05282CE3; 0x95C11548; 0xE4C66D22; 0x48C1133F; 0xC70F86DC;
    0x07F9C9EE; 0x41041F0F; 0x404779A4; 0x5D886E17; 0x325F51EB; 0xD59BC0D1; 0xF2BCC18F; 0x41113564;
    0x257B7834; 0x602A9C60; 0xDFF8E8A3; 0x1F636C1B; 0x0E12B4C2; 0x02E1329E; 0xAF664FD1; 0xCAD18115;
    0x6B2395E0; 0x333E92E1; 0x3B240B62; 0xEEBEB922; 0x85B2A20E; 0xE6BA0D99; 0xDE720C8C; 0x2DA2F728;
    0xD0127845; 0x95B794FD; 0x647D0862; 0xE7CCF5F0; 0x5449A36F; 0x877D48FA; 0xC39DFD27; 0xF33E8D1E;
    0x0A476341; 0x992EFF74; 0x3A6F6EAB; 0xF4F8FD37; 0xA812DC60; 0xA1EBDDF8; 0x991BE14C; 0xDB6E6B0D;
    0xC67B5510; 0x6D672C37; 0x2765D43B; 0xDCD0E804; 0xF1290DC7; 0xCC00FFA3; 0xB5390F92; 0x690FED0B;
    0x667B9FFB; 0xCEDB7D9C; 0xA091CF0B; 0xD9155EA3; 0xBB132F88; 0x515BAD24; 0x7B9479BF; 0x763BD6EB;
    0x37392EB3; 0xCC115979; 0x8026E297; 0xF42E312D; 0x6842ADA7; 0xC66A2B3B; 0x12754CCC; 0x782EF11C;
    0x6A124237; 0xB79251E7; 0x06A1BBE6; 0x4BFB6350; 0x1A6B1018; 0x11CAEDFA; 0x3D25BDD8; 0xE2E1C3C9;
    0x44421659; 0x0A121386; 0xD90CEC6E; 0xD5ABEA2A; 0x64AF674E; 0xDA86A85F; 0xBEBFE988; 0x64E4C3FE;
    0x9DBC8057; 0xF0F7C086; 0x60787BF8; 0x6003604D; 0xD1FD8346; 0xF6381FB0; 0x7745AE04; 0xD736FCCC;
    0x83426B33; 0xF01EAB71; 0xB0804187; 0x3C005E5F; 0x77A057BE; 0xBDE8AE24; 0x55464299; 0xBF582E61;
    0x4E58F48F; 0xF2DDFDA2; 0xF474EF38; 0x8789BDC2; 0x5366F9C3; 0xC8B38E74; 0xB475F255; 0x46FCD9B9;
    0x7AEB2661; 0x8B1DDF84; 0x846A0E79; 0x915F95E2; 0x466E598E; 0x20B45770; 0x8CD55591; 0xC902DE4C;
    0xB90BACE1; 0xBB8205D0; 0x11A86248; 0x7574A99E; 0xB77F19B6; 0xE0A9DC09; 0x662D09A1; 0xC4324633;
    0xE85A1F02; 0x09F0BE8C; 0x4A99A025; 0x1D6EFE10; 0x1AB93D1D; 0x0BA5A4DF; 0xA186F20F; 0x2868F169;
    0xDCB7DA83; 0x573906FE; 0xA1E2CE9B; 0x4FCD7F52; 0x50115E01; 0xA70683FA; 0xA002B5C4; 0x0DE6D027;
    0x9AF88C27; 0x773F8641; 0xC3604C06; 0x61A806B5; 0xF0177A28; 0xC0F586E0; 0x006058AA; 0x30DC7D62;
    0x11E69ED7; 0x2338EA63; 0x53C2DD94; 0xC2C21634; 0xBBCBEE56; 0x90BCB6DE; 0xEBFC7DA1; 0xCE591D76;
    0x6F05E409; 0x4B7C0188; 0x39720A3D; 0x7C927C24; 0x86E3725F; 0x724D9DB9; 0x1AC15BB4; 0xD39EB8FC;
    0xED545578; 0x08FCA5B5; 0xD83D7CD3; 0x4DAD0FC4; 0x1E50EF5E; 0xB161E6F8; 0xA28514D9; 0x6C51133C;
    0x6FD5C7E7; 0x56E14EC4; 0x362ABFCE; 0xDDC6C837; 0xD79A3234; 0x92638212; 0x670EFA8E; 0x406000E0];
   [0x3A39CE37; 0xD3FAF5CF; 0xABC27737; 0x5AC52D1B; 0x5CB0679E; 0x4FA33742; 0xD3822740; 0x99BC9BBE;
    0xD5118E9D; 0xBF0F7315; 0xD62D1C7E; 0xC700C47B; 0xB78C1B6B; 0x21A19045; 0xB26EB1BE; 0x6A366EB4;
    0x5748AB2F; 0xBC946E79; 0xC6A376D2; 0x6549C2C8; 0x530FF8EE; 0x468DDE7D; 0xD5730A1D; 0x4CD04DC6;
    0x2939BBDB; 0xA9BA4650; 0xAC9526E8; 0xBE5EE304; 0xA1FAD5F0; 0x6A2D519A; 0x63EF8CE2; 0x9A86EE22;
    0xC089C2B8; 0x43242EF6; 0xA51E03AA; 0x9CF2D0A4; 0x83C061BA; 0x9BE96A4D; 0x8FE51550; 0xBA645BD6;
    0x2826A2F9; 0xA73A3AE1; 0x4BA99586; 0xEF5562E9; 0xC72FEFD3; 0xF752F7DA; 0x3F046F69; 0x77FA0A59;
    0x80E4A915; 0x87B08601; 0x9B09E6AD; 0x3B3EE593; 0xE990FD5A; 0x9E34D797; 0x2CF0B7D9; 0x022B8B51;
    0x96D5AC3A; 0x017DA67D; 0xD1CF3ED6; 0x7C7D2D28; 0x1F9F25CF; 0xADF2B89B; 0x5AD6B472; 0x5A88F54C;
    0xE029AC71; 0xE019A5E6; 0x47B0ACFD; 0xED93FA9B; 0xE8D3C48D; 0x283B57CC; 0xF8D56629; 0x79132E28;
    0x785F0191; 0xED756055; 0xF7960E44; 0xE3D35E8C; 0x15056DD4; 0x88F46DBA; 0x03A16125; 0x0564F0BD;
    0xC3EB9E15; 0x3C9057A2; 0x97271AEC; 0xA93A072A; 0x1B3F6D9B; 0x1E6321F5; 0xF59C66FB; 0x26DCF319;
    0x7533D928; 0xB155FDF5; 0x03563482; 0x8ABA3CBB; 0x28517711; 0xC20AD9F8; 0xABCC5167; 0xCCAD925F;
    0x4DE81751; 0x3830DC8E; 0x379D5862; 0x9320F991; 0xEA7A90C2; 0xFB3E7BCE; 0x5121CE64; 0x774FBE32;
    0xA8B6E37E; 0xC3293D46; 0x48DE5369; 0x6413E680; 0xA2AE0810; 0xDD6DB224; 0x69852DFD; 0x09072166;
    0xB39A460A; 0x6445C0DD; 0x586CDECF; 0x1C20C8AE; 0x5BBEF7DD; 0x1B588D40; 0xCCD2017F; 0x6BB4E3BB;
    0xDDA26A7E; 0x3A59FF45; 0x3E350A44; 0xBCB4CDD5; 0x72EACEA8; 0xFA6484BB; 0x8D6612AE; 0xBF3C6F47;
    0xD29BE463; 0x542F5D9E; 0xAEC2771B; 0xF64E6370; 0x740E0D8D; 0xE75B1357; 0xF8721671; 0xAF537D5D;
    0x4040CB08; 0x4EB4E2CC; 0x34D2466A; 0x0115AF84; 0xE1B00428; 0x95983A1D; 0x06B89FB4; 0xCE6EA048;
    0x6F3F3B82; 0x3520AB82; 0x011A1D4B; 0x277227F8; 0x611560B1; 0xE7933FDC; 0xBB3A792B; 0x344525BD;
    0xA08839E1; 0x51CE794B; 0x2F32C9B7; 0xA01FBAC9; 0xE01CC87E; 0xBCC7D1F6; 0xCF0111C3; 0xA1E8AAC7;
    0x1A908749; 0xD44FBD9A; 0xD0DADECB; 0xD50ADA38; 0x0339C32A; 0xC6913667; 0x8DF9317C; 0xE0B12B4F;
    0xF79E59B7; 0x43F5BB3A; 0xF2D519FF; 0x27D9459C; 0xBF97222C; 0x15E6FC2A; 0x0F91FC71; 0x9B941525;
    0xFAE59361; 0xCEB69CEB; 0xC2A86459; 0x12BAA8D1; 0xB6C1075E; 0xE3056A0C; 0x10D25065; 0xCB03A442;
    0xE0EC6E0E; 0x1698DB3B; 0x4C98A0BE; 0x3278E964; 0x9F1F9532; 0xE0D392DF; 0xD3A0342B; 0x8971F21E;
    0x1B0A7441; 0x4BA3348C; 0xC5BE7120; 0xC37632D8; 0xDF359F8D; 0x9B992F2E; 0xE60B6F47; 0x0FE3F11D;
    0xE54CDA54; 0x1EDAD891; 0xCE6279CF; 0xCD3E7E6F; 0x1618B166; 0xFD2C1D05; 0x848FD2C5; 0xF6FB2299;
    0xF523F357; 0xA6327623; 0x93A83531; 0x56CCCD02; 0xACF08162; 0x5A75EBB5; 0x6E163697; 0x88D273CC;
    0xDE966292; 0x81B949D0; 0x4C50901B; 0x71C65614; 0xE6C6C7BD; 0x327A140A; 0x45E1D006; 0xC3F27B9A;
    0xC9AA53FD; 0x62A80F00; 0xBB25BFE2; 0x35BDD2F6; 0x71126905; 0xB2040222; 0xB6CBCF7C; 0xCD769C2B;
    0x53113EC0; 0x1640E3D3; 0x38ABBD60; 0x2547ADF0; 0xBA38209C; 0xF746CE76; 0x77AFA1C5; 0x20756060;
    0x85CBFE4E; 0x8AE88DD8; 0x7AAAF9B0; 0x4CF9AA7E; 0x1948C25C; 0x02FB8A8C; 0x01C36AE4; 0xD6EBE1F9;
    0x90D4F869; 0xA65CDEA0; 0x3F09252D; 0xC208E69F; 0xB74E6132; 0xCE77E25B; 0x578FDFE3; 0x3AC372E6]].
(** CAST_S1, CAST_Const.h 29-60. *)
Definition CAST_S1 : list N :=
  [0x30FB40D4; 0x9FA0FF0B; 0x6BECCD2F; 0x3F258C7A; 0x1E213F2F; 0x9C004DD3; 0x6003E540; 0xCF9FC949;
   0xBFD4AF27; 0x88BBBDB5; 0xE2034090; 0x98D09675; 0x6E63A0E0; 0x15C361D2; 0xC2E7661D; 0x22D4FF8E;
   0x28683B6F; 0xC07FD059; 0xFF2379C8; 0x775F50E2; 0x43C340D3; 0xDF2F8656; 0x887CA41A; 0xA2D2BD2D;
   0xA1C9E0D6; 0x346C4819; 0x61B76D87; 0x22540F2F; 0x2ABE32E1; 0xAA54166B; 0x22568E3A; 0xA2D341D0;
   0x66DB40C8; 0xA784392F; 0x004DFF2F; 0x2DB9D2DE; 0x97943FAC; 0x4A97C1D8; 0x527644B7; 0xB5F437A7;
   0xB82CBAEF; 0xD751D159; 0x6FF7F0ED; 0x5A097A1F; 0x827B68D0; 0x90ECF52E; 0x22B0C054; 0xBC8E5935;
   0x4B6D2F7F; 0x50BB64A2; 0xD2664910; 0xBEE5812D; 0xB7332290; 0xE93B159F; 0xB48EE411; 0x4BFF345D;
   0xFD45C240; 0xAD31973F; 0xC4F6D02E; 0x55FC8165; 0xD5B1CAAD; 0xA1AC2DAE; 0xA2D4B76D; 0xC19B0C50;
   0x882240F2; 0x0C6E4F38; 0xA4E4BFD7; 0x4F5BA272; 0x564C1D2F; 0xC59C5319; 0xB949E354; 0xB04669FE;
   0xB1B6AB8A; 0xC71358DD; 0x6385C545; 0x110F935D; 0x57538AD5; 0x6A390493; 0xE63D37E0; 0x2A54F6B3;
   0x3A787D5F; 0x6276A0B5; 0x19A6FCDF; 0x7A42206A; 0x29F9D4D5; 0xF61B1891; 0xBB72275E; 0xAA508167;
   0x38901091; 0xC6B505EB; 0x84C7CB8C; 0x2AD75A0F; 0x874A1427; 0xA2D1936B; 0x2AD286AF; 0xAA56D291;
   0xD7894360; 0x425C750D; 0x93B39E26; 0x187184C9; 0x6C00B32D; 0x73E2BB14; 0xA0BEBC3C; 0x54623779;
   0x64459EAB; 0x3F328B82; 0x7718CF82; 0x59A2CEA6; 0x04EE002E; 0x89FE78E6; 0x3FAB0950; 0x325FF6C2;
   0x81383F05; 0x6963C5C8; 0x76CB5AD6; 0xD49974C9; 0xCA180DCF; 0x380782D5; 0xC7FA5CF6; 0x8AC31511;
   0x35E79E13; 0x47DA91D0; 0xF40F9086; 0xA7E2419E; 0x31366241; 0x051EF495; 0xAA573B04; 0x4A805D8D;
   0x548300D0; 0x00322A3C; 0xBF64CDDF; 0xBA57A68E; 0x75C6372B; 0x50AFD341; 0xA7C13275; 0x915A0BF5;
   0x6B54BFAB; 0x2B0B1426; 0xAB4CC9D7; 0x449CCD82; 0xF7FBF265; 0xAB85C5F3; 0x1B55DB94; 0xAAD4E324;
   0xCFA4BD3F; 0x2DEAA3E2; 0x9E204D02; 0xC8BD25AC; 0xEADF55B3; 0xD5BD9E98; 0xE31231B2; 0x2AD5AD6C;
   0x954329DE; 0xADBE4528; 0xD8710F69; 0xAA51C90F; 0xAA786BF6; 0x22513F1E; 0xAA51A79B; 0x2AD344CC;
   0x7B5A41F0; 0xD37CFBAD; 0x1B069505; 0x41ECE491; 0xB4C332E6; 0x032268D4; 0xC9600ACC; 0xCE387E6D;
   0xBF6BB16C; 0x6A70FB78; 0x0D03D9C9; 0xD4DF39DE; 0xE01063DA; 0x4736F464; 0x5AD328D8; 0xB347CC96;
   0x75BB0FC3; 0x98511BFB; 0x4FFBCC35; 0xB58BCF6A; 0xE11F0ABC; 0xBFC5FE4A; 0xA70AEC10; 0xAC39570A;
   0x3F04442F; 0x6188B153; 0xE0397A2E; 0x5727CB79; 0x9CEB418F; 0x1CACD68D; 0x2AD37C96; 0x0175CB9D;
   0xC69DFF09; 0xC75B65F0; 0xD9DB40D8; 0xEC0E7779; 0x4744EAD4; 0xB11C3274; 0xDD24CB9E; 0x7E1C54BD;
   0xF01144F9; 0xD2240EB1; 0x9675B3FD; 0xA3AC3755; 0xD47C27AF; 0x51C85F4D; 0x56907596; 0xA5BB15E6;
   0x580304F0; 0xCA042CF1; 0x011A37EA; 0x8DBFAADB; 0x35BA3E4A; 0x3526FFA0; 0xC37B4D09; 0xBC306ED9;
   0x98A52666; 0x5648F725; 0xFF5E569D; 0x0CED63D0; 0x7C63B2CF; 0x700B45E1; 0xD5EA50F1; 0x85A92872;
   0xAF1FBDA7; 0xD4234870; 0xA7870BF3; 0x2D3B4D79; 0x42E04198; 0x0CD0EDE7; 0x26470DB8; 0xF881814C;
   0x474D6AD7; 0x7C0C5E5C; 0xD1231959; 0x381B7298; 0xF5D2F4DB; 0xAB838653; 0x6E2F1E23; 0x83719C9E;
   0xBD91E046; 0x9A56456E; 0xDC39200C; 0x20C8C571; 0x962BDA1C; 0xE1E696FF; 0xB141AB08; 0x7CCA89B9;
   0x1A69E783; 0x02CC4843; 0xA2F7C579; 0x429EF47D; 0x427B169C; 0x5AC9F049; 0xDD8F0F00; 0x5C8165BF].
(** CAST_S2, CAST_Const.h 62-93. *)
Definition CAST_S2 : list N :=
  [0x1F201094; 0xEF0BA75B; 0x69E3CF7E; 0x393F4380; 0xFE61CF7A; 0xEEC5207A; 0x55889C94; 0x72FC0651;
   0xADA7EF79; 0x4E1D7235; 0xD55A63CE; 0xDE0436BA; 0x99C430EF; 0x5F0C0794; 0x18DCDB7D; 0xA1D6EFF3;
   0xA0B52F7B; 0x59E83605; 0xEE15B094; 0xE9FFD909; 0xDC440086; 0xEF944459; 0xBA83CCB3; 0xE0C3CDFB;
   0xD1DA4181; 0x3B092AB1; 0xF997F1C1; 0xA5E6CF7B; 0x01420DDB; 0xE4E7EF5B; 0x25A1FF41; 0xE180F806;
   0x1FC41080; 0x179BEE7A; 0xD37AC6A9; 0xFE5830A4; 0x98DE8B7F; 0x77E83F4E; 0x79929269; 0x24FA9F7B;
   0xE113C85B; 0xACC40083; 0xD7503525; 0xF7EA615F; 0x62143154; 0x0D554B63; 0x5D681121; 0xC866C359;
   0x3D63CF73; 0xCEE234C0; 0xD4D87E87; 0x5C672B21; 0x071F6181; 0x39F7627F; 0x361E3084; 0xE4EB573B;
   0x602F64A4; 0xD63ACD9C; 0x1BBC4635; 0x9E81032D; 0x2701F50C; 0x99847AB4; 0xA0E3DF79; 0xBA6CF38C;
   0x10843094; 0x2537A95E; 0xF46F6FFE; 0xA1FF3B1F; 0x208CFB6A; 0x8F458C74; 0xD9E0A227; 0x4EC73A34;
   0xFC884F69; 0x3E4DE8DF; 0xEF0E0088; 0x3559648D; 0x8A45388C; 0x1D804366; 0x721D9BFD; 0xA58684BB;
   0xE8256333; 0x844E8212; 0x128D8098; 0xFED33FB4; 0xCE280AE1; 0x27E19BA5; 0xD5A6C252; 0xE49754BD;
   0xC5D655DD; 0xEB667064; 0x77840B4D; 0xA1B6A801; 0x84DB26A9; 0xE0B56714; 0x21F043B7; 0xE5D05860;
   0x54F03084; 0x066FF472; 0xA31AA153; 0xDADC4755; 0xB5625DBF; 0x68561BE6; 0x83CA6B94; 0x2D6ED23B;
   0xECCF01DB; 0xA6D3D0BA; 0xB6803D5C; 0xAF77A709; 0x33B4A34C; 0x397BC8D6; 0x5EE22B95; 0x5F0E5304;
   0x81ED6F61; 0x20E74364; 0xB45E1378; 0xDE18639B; 0x881CA122; 0xB96726D1; 0x8049A7E8; 0x22B7DA7B;
   0x5E552D25; 0x5272D237; 0x79D2951C; 0xC60D894C; 0x488CB402; 0x1BA4FE5B; 0xA4B09F6B; 0x1CA815CF;
   0xA20C3005; 0x8871DF63; 0xB9DE2FCB; 0x0CC6C9E9; 0x0BEEFF53; 0xE3214517; 0xB4542835; 0x9F63293C;
   0xEE41E729; 0x6E1D2D7C; 0x50045286; 0x1E6685F3; 0xF33401C6; 0x30A22C95; 0x31A70850; 0x60930F13;
   0x73F98417; 0xA1269859; 0xEC645C44; 0x52C877A9; 0xCDFF33A6; 0xA02B1741; 0x7CBAD9A2; 0x2180036F;
   0x50D99C08; 0xCB3F4861; 0xC26BD765; 0x64A3F6AB; 0x80342676; 0x25A75E7B; 0xE4E6D1FC; 0x20C710E6;
   0xCDF0B680; 0x17844D3B; 0x31EEF84D; 0x7E0824E4; 0x2CCB49EB; 0x846A3BAE; 0x8FF77888; 0xEE5D60F6;
   0x7AF75673; 0x2FDD5CDB; 0xA11631C1; 0x30F66F43; 0xB3FAEC54; 0x157FD7FA; 0xEF8579CC; 0xD152DE58;
   0xDB2FFD5E; 0x8F32CE19; 0x306AF97A; 0x02F03EF8; 0x99319AD5; 0xC242FA0F; 0xA7E3EBB0; 0xC68E4906;
   0xB8DA230C; 0x80823028; 0xDCDEF3C8; 0xD35FB171; 0x088A1BC8; 0xBEC0C560; 0x61A3C9E8; 0xBCA8F54D;
   0xC72FEFFA; 0x22822E99; 0x82C570B4; 0xD8D94E89; 0x8B1C34BC; 0x301E16E6; 0x273BE979; 0xB0FFEAA6;
   0x61D9B8C6; 0x00B24869; 0xB7FFCE3F; 0x08DC283B; 0x43DAF65A; 0xF7E19798; 0x7619B72F; 0x8F1C9BA4;
   0xDC8637A0; 0x16A7D3B1; 0x9FC393B7; 0xA7136EEB; 0xC6BCC63E; 0x1A513742; 0xEF6828BC; 0x520365D6;
   0x2D6A77AB; 0x3527ED4B; 0x821FD216; 0x095C6E2E; 0xDB92F2FB; 0x5EEA29CB; 0x145892F5; 0x91584F7F;
   0x5483697B; 0x2667A8CC; 0x85196048; 0x8C4BACEA; 0x833860D4; 0x0D23E0F9; 0x6C387E8A; 0x0AE6D249;
   0xB284600C; 0xD835731D; 0xDCB1C647; 0xAC4C56EA; 0x3EBD81B3; 0x230EABB0; 0x6438BC87; 0xF0B5B1FA;
   0x8F5EA2B3; 0xFC184642; 0x0A036B7A; 0x4FB089BD; 0x649DA589; 0xA345415E; 0x5C038323; 0x3E5D3BB9;
   0x43D79572; 0x7E6DD07C; 0x06DFDF1E; 0x6C6CC4EF; 0x7160A539; 0x73BFBE70; 0x83877605; 0x4523ECF1].
(** CAST_S3, CAST_Const.h 95-126. *)
Definition CAST_S3 : list N :=
  [0x8DEFC240; 0x25FA5D9F; 0xEB903DBF; 0xE810C907; 0x47607FFF; 0x369FE44B; 0x8C1FC644; 0xAECECA90;
   0xBEB1F9BF; 0xEEFBCAEA; 0xE8CF1950; 0x51DF07AE; 0x920E8806; 0xF0AD0548; 0xE13C8D83; 0x927010D5;
   0x11107D9F; 0x07647DB9; 0xB2E3E4D4; 0x3D4F285E; 0xB9AFA820; 0xFADE82E0; 0xA067268B; 0x8272792E;
   0x553FB2C0; 0x489AE22B; 0xD4EF9794; 0x125E3FBC; 0x21FFFCEE; 0x825B1BFD; 0x9255C5ED; 0x1257A240;
   0x4E1A8302; 0xBAE07FFF; 0x528246E7; 0x8E57140E; 0x3373F7BF; 0x8C9F8188; 0xA6FC4EE8; 0xC982B5A5;
   0xA8C01DB7; 0x579FC264; 0x67094F31; 0xF2BD3F5F; 0x40FFF7C1; 0x1FB78DFC; 0x8E6BD2C1; 0x437BE59B;
   0x99B03DBF; 0xB5DBC64B; 0x638DC0E6; 0x55819D99; 0xA197C81C; 0x4A012D6E; 0xC5884A28; 0xCCC36F71;
   0xB843C213; 0x6C0743F1; 0x8309893C; 0x0FEDDD5F; 0x2F7FE850; 0xD7C07F7E; 0x02507FBF; 0x5AFB9A04;
   0xA747D2D0; 0x1651192E; 0xAF70BF3E; 0x58C31380; 0x5F98302E; 0x727CC3C4; 0x0A0FB402; 0x0F7FEF82;
   0x8C96FDAD; 0x5D2C2AAE; 0x8EE99A49; 0x50DA88B8; 0x8427F4A0; 0x1EAC5790; 0x796FB449; 0x8252DC15;
   0xEFBD7D9B; 0xA672597D; 0xADA840D8; 0x45F54504; 0xFA5D7403; 0xE83EC305; 0x4F91751A; 0x925669C2;
   0x23EFE941; 0xA903F12E; 0x60270DF2; 0x0276E4B6; 0x94FD6574; 0x927985B2; 0x8276DBCB; 0x02778176;
   0xF8AF918D; 0x4E48F79E; 0x8F616DDF; 0xE29D840E; 0x842F7D83; 0x340CE5C8; 0x96BBB682; 0x93B4B148;
   0xEF303CAB; 0x984FAF28; 0x779FAF9B; 0x92DC560D; 0x224D1E20; 0x8437AA88; 0x7D29DC96; 0x2756D3DC;
   0x8B907CEE; 0xB51FD240; 0xE7C07CE3; 0xE566B4A1; 0xC3E9615E; 0x3CF8209D; 0x6094D1E3; 0xCD9CA341;
   0x5C76460E; 0x00EA983B; 0xD4D67881; 0xFD47572C; 0xF76CEDD9; 0xBDA8229C; 0x127DADAA; 0x438A074E;
   0x1F97C090; 0x081BDB8A; 0x93A07EBE; 0xB938CA15; 0x97B03CFF; 0x3DC2C0F8; 0x8D1AB2EC; 0x64380E51;
   0x68CC7BFB; 0xD90F2788; 0x12490181; 0x5DE5FFD4; 0xDD7EF86A; 0x76A2E214; 0xB9A40368; 0x925D958F;
   0x4B39FFFA; 0xBA39AEE9; 0xA4FFD30B; 0xFAF7933B; 0x6D498623; 0x193CBCFA; 0x27627545; 0x825CF47A;
   0x61BD8BA0; 0xD11E42D1; 0xCEAD04F4; 0x127EA392; 0x10428DB7; 0x8272A972; 0x9270C4A8; 0x127DE50B;
   0x285BA1C8; 0x3C62F44F; 0x35C0EAA5; 0xE805D231; 0x428929FB; 0xB4FCDF82; 0x4FB66A53; 0x0E7DC15B;
   0x1F081FAB; 0x108618AE; 0xFCFD086D; 0xF9FF2889; 0x694BCC11; 0x236A5CAE; 0x12DECA4D; 0x2C3F8CC5;
   0xD2D02DFE; 0xF8EF5896; 0xE4CF52DA; 0x95155B67; 0x494A488C; 0xB9B6A80C; 0x5C8F82BC; 0x89D36B45;
   0x3A609437; 0xEC00C9A9; 0x44715253; 0x0A874B49; 0xD773BC40; 0x7C34671C; 0x02717EF6; 0x4FEB5536;
   0xA2D02FFF; 0xD2BF60C4; 0xD43F03C0; 0x50B4EF6D; 0x07478CD1; 0x006E1888; 0xA2E53F55; 0xB9E6D4BC;
   0xA2048016; 0x97573833; 0xD7207D67; 0xDE0F8F3D; 0x72F87B33; 0xABCC4F33; 0x7688C55D; 0x7B00A6B0;
   0x947B0001; 0x570075D2; 0xF9BB88F8; 0x8942019E; 0x4264A5FF; 0x856302E0; 0x72DBD92B; 0xEE971B69;
   0x6EA22FDE; 0x5F08AE2B; 0xAF7A616D; 0xE5C98767; 0xCF1FEBD2; 0x61EFC8C2; 0xF1AC2571; 0xCC8239C2;
   0x67214CB8; 0xB1E583D1; 0xB7DC3E62; 0x7F10BDCE; 0xF90A5C38; 0x0FF0443D; 0x606E6DC6; 0x60543A49;
   0x5727C148; 0x2BE98A1D; 0x8AB41738; 0x20E1BE24; 0xAF96DA0F; 0x68458425; 0x99833BE5; 0x600D457D;
   0x282F9350; 0x8334B362; 0xD91D1120; 0x2B6D8DA0; 0x642B1E31; 0x9C305A00; 0x52BCE688; 0x1B03588A;
   0xF7BAEFD5; 0x4142ED9C; 0xA4315C11; 0x83323EC5; 0xDFEF4636; 0xA133C501; 0xE9D3531C; 0xEE353783].
(** CAST_S4, CAST_Const.h 128-159. *)
Definition CAST_S4 : list N :=
  [0x9DB30420; 0x1FB6E9DE; 0xA7BE7BEF; 0xD273A298; 0x4A4F7BDB; 0x64AD8C57; 0x85510443; 0xFA020ED1;
   0x7E287AFF; 0xE60FB663; 0x095F35A1; 0x79EBF120; 0xFD059D43; 0x6497B7B1; 0xF3641F63; 0x241E4ADF;
   0x28147F5F; 0x4FA2B8CD; 0xC9430040; 0x0CC32220; 0xFDD30B30; 0xC0A5374F; 0x1D2D00D9; 0x24147B15;
   0xEE4D111A; 0x0FCA5167; 0x71FF904C; 0x2D195FFE; 0x1A05645F; 0x0C13FEFE; 0x081B08CA; 0x05170121;
   0x80530100; 0xE83E5EFE; 0xAC9AF4F8; 0x7FE72701; 0xD2B8EE5F; 0x06DF4261; 0xBB9E9B8A; 0x7293EA25;
   0xCE84FFDF; 0xF5718801; 0x3DD64B04; 0xA26F263B; 0x7ED48400; 0x547EEBE6; 0x446D4CA0; 0x6CF3D6F5;
   0x2649ABDF; 0xAEA0C7F5; 0x36338CC1; 0x503F7E93; 0xD3772061; 0x11B638E1; 0x72500E03; 0xF80EB2BB;
   0xABE0502E; 0xEC8D77DE; 0x57971E81; 0xE14F6746; 0xC9335400; 0x6920318F; 0x081DBB99; 0xFFC304A5;
   0x4D351805; 0x7F3D5CE3; 0xA6C866C6; 0x5D5BCCA9; 0xDAEC6FEA; 0x9F926F91; 0x9F46222F; 0x3991467D;
   0xA5BF6D8E; 0x1143C44F; 0x43958302; 0xD0214EEB; 0x022083B8; 0x3FB6180C; 0x18F8931E; 0x281658E6;
   0x26486E3E; 0x8BD78A70; 0x7477E4C1; 0xB506E07C; 0xF32D0A25; 0x79098B02; 0xE4EABB81; 0x28123B23;
   0x69DEAD38; 0x1574CA16; 0xDF871B62; 0x211C40B7; 0xA51A9EF9; 0x0014377B; 0x041E8AC8; 0x09114003;
   0xBD59E4D2; 0xE3D156D5; 0x4FE876D5; 0x2F91A340; 0x557BE8DE; 0x00EAE4A7; 0x0CE5C2EC; 0x4DB4BBA6;
   0xE756BDFF; 0xDD3369AC; 0xEC17B035; 0x06572327; 0x99AFC8B0; 0x56C8C391; 0x6B65811C; 0x5E146119;
   0x6E85CB75; 0xBE07C002; 0xC2325577; 0x893FF4EC; 0x5BBFC92D; 0xD0EC3B25; 0xB7801AB7; 0x8D6D3B24;
   0x20C763EF; 0xC366A5FC; 0x9C382880; 0x0ACE3205; 0xAAC9548A; 0xECA1D7C7; 0x041AFA32; 0x1D16625A;
   0x6701902C; 0x9B757A54; 0x31D477F7; 0x9126B031; 0x36CC6FDB; 0xC70B8B46; 0xD9E66A48; 0x56E55A79;
   0x026A4CEB; 0x52437EFF; 0x2F8F76B4; 0x0DF980A5; 0x8674CDE3; 0xEDDA04EB; 0x17A9BE04; 0x2C18F4DF;
   0xB7747F9D; 0xAB2AF7B4; 0xEFC34D20; 0x2E096B7C; 0x1741A254; 0xE5B6A035; 0x213D42F6; 0x2C1C7C26;
   0x61C2F50F; 0x6552DAF9; 0xD2C231F8; 0x25130F69; 0xD8167FA2; 0x0418F2C8; 0x001A96A6; 0x0D1526AB;
   0x63315C21; 0x5E0A72EC; 0x49BAFEFD; 0x187908D9; 0x8D0DBD86; 0x311170A7; 0x3E9B640C; 0xCC3E10D7;
   0xD5CAD3B6; 0x0CAEC388; 0xF73001E1; 0x6C728AFF; 0x71EAE2A1; 0x1F9AF36E; 0xCFCBD12F; 0xC1DE8417;
   0xAC07BE6B; 0xCB44A1D8; 0x8B9B0F56; 0x013988C3; 0xB1C52FCA; 0xB4BE31CD; 0xD8782806; 0x12A3A4E2;
   0x6F7DE532; 0x58FD7EB6; 0xD01EE900; 0x24ADFFC2; 0xF4990FC5; 0x9711AAC5; 0x001D7B95; 0x82E5E7D2;
   0x109873F6; 0x00613096; 0xC32D9521; 0xADA121FF; 0x29908415; 0x7FBB977F; 0xAF9EB3DB; 0x29C9ED2A;
   0x5CE2A465; 0xA730F32C; 0xD0AA3FE8; 0x8A5CC091; 0xD49E2CE7; 0x0CE454A9; 0xD60ACD86; 0x015F1919;
   0x77079103; 0xDEA03AF6; 0x78A8565E; 0xDEE356DF; 0x21F05CBE; 0x8B75E387; 0xB3C50651; 0xB8A5C3EF;
   0xD8EEB6D2; 0xE523BE77; 0xC2154529; 0x2F69EFDF; 0xAFE67AFB; 0xF470C4B2; 0xF3E0EB5B; 0xD6CC9876;
   0x39E4460C; 0x1FDA8538; 0x1987832F; 0xCA007367; 0xA99144F8; 0x296B299E; 0x492FC295; 0x9266BEAB;
   0xB5676E69; 0x9BD3DDDA; 0xDF7E052F; 0xDB25701C; 0x1B5E51EE; 0xF65324E6; 0x6AFCE36C; 0x0316CC04;
   0x8644213E; 0xB7DC59D0; 0x7965291F; 0xCCD6FD43; 0x41823979; 0x932BCDF6; 0xB657C34D; 0x4EDFD282;
   0x7AE5290C; 0x3CB9536B; 0x851E20FE; 0x9833557E; 0x13ECF0B0; 0xD3FFB372; 0x3F85C5C1; 0x0AEF7ED2].
(** CAST128_S5, CAST128_Const.h 28-59. *)
Definition CAST128_S5 : list N :=
  [0x7EC90C04; 0x2C6E74B9; 0x9B0E66DF; 0xA6337911; 0xB86A7FFF; 0x1DD358F5; 0x44DD9D44; 0x1731167F;
   0x08FBF1FA; 0xE7F511CC; 0xD2051B00; 0x735ABA00; 0x2AB722D8; 0x386381CB; 0xACF6243A; 0x69BEFD7A;
   0xE6A2E77F; 0xF0C720CD; 0xC4494816; 0xCCF5C180; 0x38851640; 0x15B0A848; 0xE68B18CB; 0x4CAADEFF;
   0x5F480A01; 0x0412B2AA; 0x259814FC; 0x41D0EFE2; 0x4E40B48D; 0x248EB6FB; 0x8DBA1CFE; 0x41A99B02;
   0x1A550A04; 0xBA8F65CB; 0x7251F4E7; 0x95A51725; 0xC106ECD7; 0x97A5980A; 0xC539B9AA; 0x4D79FE6A;
   0xF2F3F763; 0x68AF8040; 0xED0C9E56; 0x11B4958B; 0xE1EB5A88; 0x8709E6B0; 0xD7E07156; 0x4E29FEA7;
   0x6366E52D; 0x02D1C000; 0xC4AC8E05; 0x9377F571; 0x0C05372A; 0x578535F2; 0x2261BE02; 0xD642A0C9;
   0xDF13A280; 0x74B55BD2; 0x682199C0; 0xD421E5EC; 0x53FB3CE8; 0xC8ADEDB3; 0x28A87FC9; 0x3D959981;
   0x5C1FF900; 0xFE38D399; 0x0C4EFF0B; 0x062407EA; 0xAA2F4FB1; 0x4FB96976; 0x90C79505; 0xB0A8A774;
   0xEF55A1FF; 0xE59CA2C2; 0xA6B62D27; 0xE66A4263; 0xDF65001F; 0x0EC50966; 0xDFDD55BC; 0x29DE0655;
   0x911E739A; 0x17AF8975; 0x32C7911C; 0x89F89468; 0x0D01E980; 0x524755F4; 0x03B63CC9; 0x0CC844B2;
   0xBCF3F0AA; 0x87AC36E9; 0xE53A7426; 0x01B3D82B; 0x1A9E7449; 0x64EE2D7E; 0xCDDBB1DA; 0x01C94910;
   0xB868BF80; 0x0D26F3FD; 0x9342EDE7; 0x04A5C284; 0x636737B6; 0x50F5B616; 0xF24766E3; 0x8ECA36C1;
   0x136E05DB; 0xFEF18391; 0xFB887A37; 0xD6E7F7D4; 0xC7FB7DC9; 0x3063FCDF; 0xB6F589DE; 0xEC2941DA;
   0x26E46695; 0xB7566419; 0xF654EFC5; 0xD08D58B7; 0x48925401; 0xC1BACB7F; 0xE5FF550F; 0xB6083049;
   0x5BB5D0E8; 0x87D72E5A; 0xAB6A6EE1; 0x223A66CE; 0xC62BF3CD; 0x9E0885F9; 0x68CB3E47; 0x086C010F;
   0xA21DE820; 0xD18B69DE; 0xF3F65777; 0xFA02C3F6; 0x407EDAC3; 0xCBB3D550; 0x1793084D; 0xB0D70EBA;
   0x0AB378D5; 0xD951FB0C; 0xDED7DA56; 0x4124BBE4; 0x94CA0B56; 0x0F5755D1; 0xE0E1E56E; 0x6184B5BE;
   0x580A249F; 0x94F74BC0; 0xE327888E; 0x9F7B5561; 0xC3DC0280; 0x05687715; 0x646C6BD7; 0x44904DB3;
   0x66B4F0A3; 0xC0F1648A; 0x697ED5AF; 0x49E92FF6; 0x309E374F; 0x2CB6356A; 0x85808573; 0x4991F840;
   0x76F0AE02; 0x083BE84D; 0x28421C9A; 0x44489406; 0x736E4CB8; 0xC1092910; 0x8BC95FC6; 0x7D869CF4;
   0x134F616F; 0x2E77118D; 0xB31B2BE1; 0xAA90B472; 0x3CA5D717; 0x7D161BBA; 0x9CAD9010; 0xAF462BA2;
   0x9FE459D2; 0x45D34559; 0xD9F2DA13; 0xDBC65487; 0xF3E4F94E; 0x176D486F; 0x097C13EA; 0x631DA5C7;
   0x445F7382; 0x175683F4; 0xCDC66A97; 0x70BE0288; 0xB3CDCF72; 0x6E5DD2F3; 0x20936079; 0x459B80A5;
   0xBE60E2DB; 0xA9C23101; 0xEBA5315C; 0x224E42F2; 0x1C5C1572; 0xF6721B2C; 0x1AD2FFF3; 0x8C25404E;
   0x324ED72F; 0x4067B7FD; 0x0523138E; 0x5CA3BC78; 0xDC0FD66E; 0x75922283; 0x784D6B17; 0x58EBB16E;
   0x44094F85; 0x3F481D87; 0xFCFEAE7B; 0x77B5FF76; 0x8C2302BF; 0xAAF47556; 0x5F46B02A; 0x2B092801;
   0x3D38F5F7; 0x0CA81F36; 0x52AF4A8A; 0x66D5E7C0; 0xDF3B0874; 0x95055110; 0x1B5AD7A8; 0xF61ED5AD;
   0x6CF6E479; 0x20758184; 0xD0CEFA65; 0x88F7BE58; 0x4A046826; 0x0FF6F8F3; 0xA09C7F70; 0x5346ABA0;
   0x5CE96C28; 0xE176EDA3; 0x6BAC307F; 0x376829D2; 0x85360FA9; 0x17E3FE2A; 0x24B79767; 0xF5A96B20;
   0xD6CD2595; 0x68FF1EBF; 0x7555442C; 0xF19F06BE; 0xF9E0659A; 0xEEB9491D; 0x34010718; 0xBB30CAB8;
   0xE822FE15; 0x88570983; 0x750E6249; 0xDA627E55; 0x5E76FFA8; 0xB1534546; 0x6D47DE08; 0xEFE9E7D4].
(** CAST128_S6, CAST128_Const.h 61-92. *)
Definition CAST128_S6 : list N :=
  [0xF6FA8F9D; 0x2CAC6CE1; 0x4CA34867; 0xE2337F7C; 0x95DB08E7; 0x016843B4; 0xECED5CBC; 0x325553AC;
   0xBF9F0960; 0xDFA1E2ED; 0x83F0579D; 0x63ED86B9; 0x1AB6A6B8; 0xDE5EBE39; 0xF38FF732; 0x8989B138;
   0x33F14961; 0xC01937BD; 0xF506C6DA; 0xE4625E7E; 0xA308EA99; 0x4E23E33C; 0x79CBD7CC; 0x48A14367;
   0xA3149619; 0xFEC94BD5; 0xA114174A; 0xEAA01866; 0xA084DB2D; 0x09A8486F; 0xA888614A; 0x2900AF98;
   0x01665991; 0xE1992863; 0xC8F30C60; 0x2E78EF3C; 0xD0D51932; 0xCF0FEC14; 0xF7CA07D2; 0xD0A82072;
   0xFD41197E; 0x9305A6B0; 0xE86BE3DA; 0x74BED3CD; 0x372DA53C; 0x4C7F4448; 0xDAB5D440; 0x6DBA0EC3;
   0x083919A7; 0x9FBAEED9; 0x49DBCFB0; 0x4E670C53; 0x5C3D9C01; 0x64BDB941; 0x2C0E636A; 0xBA7DD9CD;
   0xEA6F7388; 0xE70BC762; 0x35F29ADB; 0x5C4CDD8D; 0xF0D48D8C; 0xB88153E2; 0x08A19866; 0x1AE2EAC8;
   0x284CAF89; 0xAA928223; 0x9334BE53; 0x3B3A21BF; 0x16434BE3; 0x9AEA3906; 0xEFE8C36E; 0xF890CDD9;
   0x80226DAE; 0xC340A4A3; 0xDF7E9C09; 0xA694A807; 0x5B7C5ECC; 0x221DB3A6; 0x9A69A02F; 0x68818A54;
   0xCEB2296F; 0x53C0843A; 0xFE893655; 0x25BFE68A; 0xB4628ABC; 0xCF222EBF; 0x25AC6F48; 0xA9A99387;
   0x53BDDB65; 0xE76FFBE7; 0xE967FD78; 0x0BA93563; 0x8E342BC1; 0xE8A11BE9; 0x4980740D; 0xC8087DFC;
   0x8DE4BF99; 0xA11101A0; 0x7FD37975; 0xDA5A26C0; 0xE81F994F; 0x9528CD89; 0xFD339FED; 0xB87834BF;
   0x5F04456D; 0x22258698; 0xC9C4C83B; 0x2DC156BE; 0x4F628DAA; 0x57F55EC5; 0xE2220ABE; 0xD2916EBF;
   0x4EC75B95; 0x24F2C3C0; 0x42D15D99; 0xCD0D7FA0; 0x7B6E27FF; 0xA8DC8AF0; 0x7345C106; 0xF41E232F;
   0x35162386; 0xE6EA8926; 0x3333B094; 0x157EC6F2; 0x372B74AF; 0x692573E4; 0xE9A9D848; 0xF3160289;
   0x3A62EF1D; 0xA787E238; 0xF3A5F676; 0x74364853; 0x20951063; 0x4576698D; 0xB6FAD407; 0x592AF950;
   0x36F73523; 0x4CFB6E87; 0x7DA4CEC0; 0x6C152DAA; 0xCB0396A8; 0xC50DFE5D; 0xFCD707AB; 0x0921C42F;
   0x89DFF0BB; 0x5FE2BE78; 0x448F4F33; 0x754613C9; 0x2B05D08D; 0x48B9D585; 0xDC049441; 0xC8098F9B;
   0x7DEDE786; 0xC39A3373; 0x42410005; 0x6A091751; 0x0EF3C8A6; 0x890072D6; 0x28207682; 0xA9A9F7BE;
   0xBF32679D; 0xD45B5B75; 0xB353FD00; 0xCBB0E358; 0x830F220A; 0x1F8FB214; 0xD372CF08; 0xCC3C4A13;
   0x8CF63166; 0x061C87BE; 0x88C98F88; 0x6062E397; 0x47CF8E7A; 0xB6C85283; 0x3CC2ACFB; 0x3FC06976;
   0x4E8F0252; 0x64D8314D; 0xDA3870E3; 0x1E665459; 0xC10908F0; 0x513021A5; 0x6C5B68B7; 0x822F8AA0;
   0x3007CD3E; 0x74719EEF; 0xDC872681; 0x073340D4; 0x7E432FD9; 0x0C5EC241; 0x8809286C; 0xF592D891;
   0x08A930F6; 0x957EF305; 0xB7FBFFBD; 0xC266E96F; 0x6FE4AC98; 0xB173ECC0; 0xBC60B42A; 0x953498DA;
   0xFBA1AE12; 0x2D4BD736; 0x0F25FAAB; 0xA4F3FCEB; 0xE2969123; 0x257F0C3D; 0x9348AF49; 0x361400BC;
   0xE8816F4A; 0x3814F200; 0xA3F94043; 0x9C7A54C2; 0xBC704F57; 0xDA41E7F9; 0xC25AD33A; 0x54F4A084;
   0xB17F5505; 0x59357CBE; 0xEDBD15C8; 0x7F97C5AB; 0xBA5AC7B5; 0xB6F6DEAF; 0x3A479C3A; 0x5302DA25;
   0x653D7E6A; 0x54268D49; 0x51A477EA; 0x5017D55B; 0xD7D25D88; 0x44136C76; 0x0404A8C8; 0xB8E5A121;
   0xB81A928A; 0x60ED5869; 0x97C55B96; 0xEAEC991B; 0x29935913; 0x01FDB7F1; 0x088E8DFA; 0x9AB6F6F5;
   0x3B4CBF9F; 0x4A5DE3AB; 0xE6051D35; 0xA0E1D855; 0xD36B4CF1; 0xF544EDEB; 0xB0E93524; 0xBEBB8FBD;
   0xA2D762CF; 0x49C92F54; 0x38B5F331; 0x7128A454; 0x48392905; 0xA65B1DB8; 0x851C97BD; 0xD675CF2F].
(** CAST128_S7, CAST128_Const.h 94-125. *)
Definition CAST128_S7 : list N :=
  [0x85E04019; 0x332BF567; 0x662DBFFF; 0xCFC65693; 0x2A8D7F6F; 0xAB9BC912; 0xDE6008A1; 0x2028DA1F;
   0x0227BCE7; 0x4D642916; 0x18FAC300; 0x50F18B82; 0x2CB2CB11; 0xB232E75C; 0x4B3695F2; 0xB28707DE;
   0xA05FBCF6; 0xCD4181E9; 0xE150210C; 0xE24EF1BD; 0xB168C381; 0xFDE4E789; 0x5C79B0D8; 0x1E8BFD43;
   0x4D495001; 0x38BE4341; 0x913CEE1D; 0x92A79C3F; 0x089766BE; 0xBAEEADF4; 0x1286BECF; 0xB6EACB19;
   0x2660C200; 0x7565BDE4; 0x64241F7A; 0x8248DCA9; 0xC3B3AD66; 0x28136086; 0x0BD8DFA8; 0x356D1CF2;
   0x107789BE; 0xB3B2E9CE; 0x0502AA8F; 0x0BC0351E; 0x166BF52A; 0xEB12FF82; 0xE3486911; 0xD34D7516;
   0x4E7B3AFF; 0x5F43671B; 0x9CF6E037; 0x4981AC83; 0x334266CE; 0x8C9341B7; 0xD0D854C0; 0xCB3A6C88;
   0x47BC2829; 0x4725BA37; 0xA66AD22B; 0x7AD61F1E; 0x0C5CBAFA; 0x4437F107; 0xB6E79962; 0x42D2D816;
   0x0A961288; 0xE1A5C06E; 0x13749E67; 0x72FC081A; 0xB1D139F7; 0xF9583745; 0xCF19DF58; 0xBEC3F756;
   0xC06EBA30; 0x07211B24; 0x45C28829; 0xC95E317F; 0xBC8EC511; 0x38BC46E9; 0xC6E6FA14; 0xBAE8584A;
   0xAD4EBC46; 0x468F508B; 0x7829435F; 0xF124183B; 0x821DBA9F; 0xAFF60FF4; 0xEA2C4E6D; 0x16E39264;
   0x92544A8B; 0x009B4FC3; 0xABA68CED; 0x9AC96F78; 0x06A5B79A; 0xB2856E6E; 0x1AEC3CA9; 0xBE838688;
   0x0E0804E9; 0x55F1BE56; 0xE7E5363B; 0xB3A1F25D; 0xF7DEBB85; 0x61FE033C; 0x16746233; 0x3C034C28;
   0xDA6D0C74; 0x79AAC56C; 0x3CE4E1AD; 0x51F0C802; 0x98F8F35A; 0x1626A49F; 0xEED82B29; 0x1D382FE3;
   0x0C4FB99A; 0xBB325778; 0x3EC6D97B; 0x6E77A6A9; 0xCB658B5C; 0xD45230C7; 0x2BD1408B; 0x60C03EB7;
   0xB9068D78; 0xA33754F4; 0xF430C87D; 0xC8A71302; 0xB96D8C32; 0xEBD4E7BE; 0xBE8B9D2D; 0x7979FB06;
   0xE7225308; 0x8B75CF77; 0x11EF8DA4; 0xE083C858; 0x8D6B786F; 0x5A6317A6; 0xFA5CF7A0; 0x5DDA0033;
   0xF28EBFB0; 0xF5B9C310; 0xA0EAC280; 0x08B9767A; 0xA3D9D2B0; 0x79D34217; 0x021A718D; 0x9AC6336A;
   0x2711FD60; 0x438050E3; 0x069908A8; 0x3D7FEDC4; 0x826D2BEF; 0x4EEB8476; 0x488DCF25; 0x36C9D566;
   0x28E74E41; 0xC2610ACA; 0x3D49A9CF; 0xBAE3B9DF; 0xB65F8DE6; 0x92AEAF64; 0x3AC7D5E6; 0x9EA80509;
   0xF22B017D; 0xA4173F70; 0xDD1E16C3; 0x15E0D7F9; 0x50B1B887; 0x2B9F4FD5; 0x625ABA82; 0x6A017962;
   0x2EC01B9C; 0x15488AA9; 0xD716E740; 0x40055A2C; 0x93D29A22; 0xE32DBF9A; 0x058745B9; 0x3453DC1E;
   0xD699296E; 0x496CFF6F; 0x1C9F4986; 0xDFE2ED07; 0xB87242D1; 0x19DE7EAE; 0x053E561A; 0x15AD6F8C;
   0x66626C1C; 0x7154C24C; 0xEA082B2A; 0x93EB2939; 0x17DCB0F0; 0x58D4F2AE; 0x9EA294FB; 0x52CF564C;
   0x9883FE66; 0x2EC40581; 0x763953C3; 0x01D6692E; 0xD3A0C108; 0xA1E7160E; 0xE4F2DFA6; 0x693ED285;
   0x74904698; 0x4C2B0EDD; 0x4F757656; 0x5D393378; 0xA132234F; 0x3D321C5D; 0xC3F5E194; 0x4B269301;
   0xC79F022F; 0x3C997E7E; 0x5E4F9504; 0x3FFAFBBD; 0x76F7AD0E; 0x296693F4; 0x3D1FCE6F; 0xC61E45BE;
   0xD3B5AB34; 0xF72BF9B7; 0x1B0434C0; 0x4E72B567; 0x5592A33D; 0xB5229301; 0xCFD2A87F; 0x60AEB767;
   0x1814386B; 0x30BCC33D; 0x38A0C07D; 0xFD1606F2; 0xC363519B; 0x589DD390; 0x5479F8E6; 0x1CB8D647;
   0x97FD61A9; 0xEA7759F4; 0x2D57539D; 0x569A58CF; 0xE84E63AD; 0x462E1B78; 0x6580F87E; 0xF3817914;
   0x91DA55F4; 0x40A230F3; 0xD1988F35; 0xB6E318D2; 0x3FFA50BC; 0x3D40F021; 0xC3C0BDAE; 0x4958C24C;
   0x518F36B2; 0x84B1D370; 0x0FEDCE83; 0x878DDADA; 0xF2A279C7; 0x94E01BE8; 0x90716F4B; 0x954B8AA3].
(** CAST128_S8, CAST128_Const.h 127-158. *)
Definition CAST128_S8 : list N :=
  [0xE216300D; 0xBBDDFFFC; 0xA7EBDABD; 0x35648095; 0x7789F8B7; 0xE6C1121B; 0x0E241600; 0x052CE8B5;
   0x11A9CFB0; 0xE5952F11; 0xECE7990A; 0x9386D174; 0x2A42931C; 0x76E38111; 0xB12DEF3A; 0x37DDDDFC;
   0xDE9ADEB1; 0x0A0CC32C; 0xBE197029; 0x84A00940; 0xBB243A0F; 0xB4D137CF; 0xB44E79F0; 0x049EEDFD;
   0x0B15A15D; 0x480D3168; 0x8BBBDE5A; 0x669DED42; 0xC7ECE831; 0x3F8F95E7; 0x72DF191B; 0x7580330D;
   0x94074251; 0x5C7DCDFA; 0xABBE6D63; 0xAA402164; 0xB301D40A; 0x02E7D1CA; 0x53571DAE; 0x7A3182A2;
   0x12A8DDEC; 0xFDAA335D; 0x176F43E8; 0x71FB46D4; 0x38129022; 0xCE949AD4; 0xB84769AD; 0x965BD862;
   0x82F3D055; 0x66FB9767; 0x15B80B4E; 0x1D5B47A0; 0x4CFDE06F; 0xC28EC4B8; 0x57E8726E; 0x647A78FC;
   0x99865D44; 0x608BD593; 0x6C200E03; 0x39DC5FF6; 0x5D0B00A3; 0xAE63AFF2; 0x7E8BD632; 0x70108C0C;
   0xBBD35049; 0x2998DF04; 0x980CF42A; 0x9B6DF491; 0x9E7EDD53; 0x06918548; 0x58CB7E07; 0x3B74EF2E;
   0x522FFFB1; 0xD24708CC; 0x1C7E27CD; 0xA4EB215B; 0x3CF1D2E2; 0x19B47A38; 0x424F7618; 0x35856039;
   0x9D17DEE7; 0x27EB35E6; 0xC9AFF67B; 0x36BAF5B8; 0x09C467CD; 0xC18910B1; 0xE11DBF7B; 0x06CD1AF8;
   0x7170C608; 0x2D5E3354; 0xD4DE495A; 0x64C6D006; 0xBCC0C62C; 0x3DD00DB3; 0x708F8F34; 0x77D51B42;
   0x264F620F; 0x24B8D2BF; 0x15C1B79E; 0x46A52564; 0xF8D7E54E; 0x3E378160; 0x7895CDA5; 0x859C15A5;
   0xE6459788; 0xC37BC75F; 0xDB07BA0C; 0x0676A3AB; 0x7F229B1E; 0x31842E7B; 0x24259FD7; 0xF8BEF472;
   0x835FFCB8; 0x6DF4C1F2; 0x96F5B195; 0xFD0AF0FC; 0xB0FE134C; 0xE2506D3D; 0x4F9B12EA; 0xF215F225;
   0xA223736F; 0x9FB4C428; 0x25D04979; 0x34C713F8; 0xC4618187; 0xEA7A6E98; 0x7CD16EFC; 0x1436876C;
   0xF1544107; 0xBEDEEE14; 0x56E9AF27; 0xA04AA441; 0x3CF7C899; 0x92ECBAE6; 0xDD67016D; 0x151682EB;
   0xA842EEDF; 0xFDBA60B4; 0xF1907B75; 0x20E3030F; 0x24D8C29E; 0xE139673B; 0xEFA63FB8; 0x71873054;
   0xB6F2CF3B; 0x9F326442; 0xCB15A4CC; 0xB01A4504; 0xF1E47D8D; 0x844A1BE5; 0xBAE7DFDC; 0x42CBDA70;
   0xCD7DAE0A; 0x57E85B7A; 0xD53F5AF6; 0x20CF4D8C; 0xCEA4D428; 0x79D130A4; 0x3486EBFB; 0x33D3CDDC;
   0x77853B53; 0x37EFFCB5; 0xC5068778; 0xE580B3E6; 0x4E68B8F4; 0xC5C8B37E; 0x0D809EA2; 0x398FEB7C;
   0x132A4F94; 0x43B7950E; 0x2FEE7D1C; 0x223613BD; 0xDD06CAA2; 0x37DF932B; 0xC4248289; 0xACF3EBC3;
   0x5715F6B7; 0xEF3478DD; 0xF267616F; 0xC148CBE4; 0x9052815E; 0x5E410FAB; 0xB48A2465; 0x2EDA7FA4;
   0xE87B40E4; 0xE98EA084; 0x5889E9E1; 0xEFD390FC; 0xDD07D35B; 0xDB485694; 0x38D7E5B2; 0x57720101;
   0x730EDEBC; 0x5B643113; 0x94917E4F; 0x503C2FBA; 0x646F1282; 0x7523D24A; 0xE0779695; 0xF9C17A8F;
   0x7A5B2121; 0xD187B896; 0x29263A4D; 0xBA510CDF; 0x81F47C9F; 0xAD1163ED; 0xEA7B5965; 0x1A00726E;
   0x11403092; 0x00DA6D77; 0x4A0CDD61; 0xAD1F4603; 0x605BDFB0; 0x9EEDC364; 0x22EBE6A8; 0xCEE7D28A;
   0xA0E736A0; 0x5564A6B9; 0x10853209; 0xC7EB8F37; 0x2DE705CA; 0x8951570F; 0xDF09822B; 0xBD691A6C;
   0xAA12E4F2; 0x87451C0F; 0xE0F6A27A; 0x3ADA4819; 0x4CF1764F; 0x0D771C2B; 0x67CDB156; 0x350D8384;
   0x5938FA0F; 0x42399EF3; 0x36997B07; 0x0E84093D; 0x4AA93E61; 0x8360D87B; 0x1FA98B0C; 0x1149382C;
   0xE97625A5; 0x0614D1B7; 0x0E25244B; 0x0C768347; 0x589E8D82; 0x0D2059D1; 0xA466BB1E; 0xF8DA0A82;
   0x04F19130; 0xBA6E4EC0; 0x99265164; 0x1EE7230D; 0x50B2AD80; 0xEAEE6801; 0x8DB2A283; 0xEA8BF59E].
(** Camellia_Sigma, Camellia_Const.h 28-33 (the octets). *)
Definition Camellia_Sigma : list bytes :=
  [[0xA0; 0x9E; 0x66; 0x7F; 0x3B; 0xCC; 0x90; 0x8B];
   [0xB6; 0x7A; 0xE8; 0x58; 0x4C; 0xAA; 0x73; 0xB2];
   [0xC6; 0xEF; 0x37; 0x2F; 0xE9; 0x4F; 0x82; 0xBE];
   [0x54; 0xFF; 0x53; 0xA5; 0xF1; 0xD3; 0x6F; 0x1C];
   [0x10; 0xE5; 0x27; 0xFA; 0xDE; 0x68; 0x2D; 0x1D];
   [0xB0; 0x56; 0x88; 0xC2; 0xB3; 0xE6; 0xC1; 0xFD]].
(** Camellia_SBox, Camellia_Const.h 35-50. *)
Definition Camellia_SBox : list N :=
  [0x70; 0x82; 0x2c; 0xec; 0xb3; 0x27; 0xc0; 0xe5; 0xe4; 0x85; 0x57; 0x35; 0xea; 0x0c; 0xae; 0x41;
   0x23; 0xef; 0x6b; 0x93; 0x45; 0x19; 0xa5; 0x21; 0xed; 0x0e; 0x4f; 0x4e; 0x1d; 0x65; 0x92; 0xbd;
   0x86; 0xb8; 0xaf; 0x8f; 0x7c; 0xeb; 0x1f; 0xce; 0x3e; 0x30; 0xdc; 0x5f; 0x5e; 0xc5; 0x0b; 0x1a;
   0xa6; 0xe1; 0x39; 0xca; 0xd5; 0x47; 0x5d; 0x3d; 0xd9; 0x01; 0x5a; 0xd6; 0x51; 0x56; 0x6c; 0x4d;
   0x8b; 0x0d; 0x9a; 0x66; 0xfb; 0xcc; 0xb0; 0x2d; 0x74; 0x12; 0x2b; 0x20; 0xf0; 0xb1; 0x84; 0x99;
   0xdf; 0x4c; 0xcb; 0xc2; 0x34; 0x7e; 0x76; 0x05; 0x6d; 0xb7; 0xa9; 0x31; 0xd1; 0x17; 0x04; 0xd7;
   0x14; 0x58; 0x3a; 0x61; 0xde; 0x1b; 0x11; 0x1c; 0x32; 0x0f; 0x9c; 0x16; 0x53; 0x18; 0xf2; 0x22;
   0xfe; 0x44; 0xcf; 0xb2; 0xc3; 0xb5; 0x7a; 0x91; 0x24; 0x08; 0xe8; 0xa8; 0x60; 0xfc; 0x69; 0x50;
   0xaa; 0xd0; 0xa0; 0x7d; 0xa1; 0x89; 0x62; 0x97; 0x54; 0x5b; 0x1e; 0x95; 0xe0; 0xff; 0x64; 0xd2;
   0x10; 0xc4; 0x00; 0x48; 0xa3; 0xf7; 0x75; 0xdb; 0x8a; 0x03; 0xe6; 0xda; 0x09; 0x3f; 0xdd; 0x94;
   0x87; 0x5c; 0x83; 0x02; 0xcd; 0x4a; 0x90; 0x33; 0x73; 0x67; 0xf6; 0xf3; 0x9d; 0x7f; 0xbf; 0xe2;
   0x52; 0x9b; 0xd8; 0x26; 0xc8; 0x37; 0xc6; 0x3b; 0x81; 0x96; 0x6f; 0x4b; 0x13; 0xbe; 0x63; 0x2e;
   0xe9; 0x79; 0xa7; 0x8c; 0x9f; 0x6e; 0xbc; 0x8e; 0x29; 0xf5; 0xf9; 0xb6; 0x2f; 0xfd; 0xb4; 0x59;
   0x78; 0x98; 0x06; 0x6a; 0xe7; 0x46; 0x71; 0xba; 0xd4; 0x25; 0xab; 0x42; 0x88; 0xa2; 0x8d; 0xfa;
   0x72; 0x07; 0xb9; 0x55; 0xf8; 0xee; 0xac; 0x0a; 0x36; 0x49; 0x2a; 0x68; 0x3c; 0x38; 0xf1; 0xa4;
   0x40; 0x28; 0xd3; 0x7b; 0xbb; 0xc9; 0x43; 0xc1; 0x15; 0xe3; 0xad; 0xf4; 0x77; 0xc7; 0x80; 0x9e].
(** DES_IP, DES_Const.h 28-35. *)
Definition DES_IP : list N :=
  [58; 50; 42; 34; 26; 18; 10; 2; 60; 52; 44; 36; 28; 20; 12; 4;
   62; 54; 46; 38; 30; 22; 14; 6; 64; 56; 48; 40; 32; 24; 16; 8;
   57; 49; 41; 33; 25; 17; 9; 1; 59; 51; 43; 35; 27; 19; 11; 3;
   61; 53; 45; 37; 29; 21; 13; 5; 63; 55; 47; 39; 31; 23; 15; 7].
(** DES_EX, DES_Const.h 37-44. *)
Definition DES_EX : list N :=
  [32; 1; 2; 3; 4; 5; 4; 5; 6; 7; 8; 9; 8; 9; 10; 11;
   12; 13; 12; 13; 14; 15; 16; 17; 16; 17; 18; 19; 20; 21; 20; 21;
   22; 23; 24; 25; 24; 25; 26; 27; 28; 29; 28; 29; 30; 31; 32; 1].
(** DES_P, DES_Const.h 46-53. *)
Definition DES_P : list N :=
  [16; 7; 20; 21; 29; 12; 28; 17; 1; 15; 23; 26; 5; 18; 31; 10;
   2; 8; 24; 14; 32; 27; 3; 9; 19; 13; 30; 6; 22; 11; 4; 25].
(** DES_INVIP, DES_Const.h 55-62. *)
Definition DES_INVIP : list N :=
  [40; 8; 48; 16; 56; 24; 64; 32; 39; 7; 47; 15; 55; 23; 63; 31;
   38; 6; 46; 14; 54; 22; 62; 30; 37; 5; 45; 13; 53; 21; 61; 29;
   36; 4; 44; 12; 52; 20; 60; 28; 35; 3; 43; 11; 51; 19; 59; 27;
   34; 2; 42; 10; 50; 18; 58; 26; 33; 1; 41; 9; 49; 17; 57; 25].
(** DES_S_BOX, DES_Const.h 64-102. *)
Definition DES_S_BOX : list (list N) :=
  [[14; 4; 13; 1; 2; 15; 11; 8; 3; 10; 6; 12; 5; 9; 0; 7];
   [0; 15; 7; 4; 14; 2; 13; 1; 10; 6; 12; 11; 9; 5; 3; 8];
   [4; 1; 14; 8; 13; 6; 2; 11; 15; 12; 9; 7; 3; 10; 5; 0];
   [15; 12; 8; 2; 4; 9; 1; 7; 5; 11; 3; 14; 10; 0; 6; 13];
   [15; 1; 8; 14; 6; 11; 3; 4; 9; 7; 2; 13; 12; 0; 5; 10];
   [3; 13; 4; 7; 15; 2; 8; 14; 12; 0; 1; 10; 6; 9; 11; 5];
   [0; 14; 7; 11; 10; 4; 13; 1; 5; 8; 12; 6; 9; 3; 2; 15];
   [13; 8; 10; 1; 3; 15; 4; 2; 11; 6; 7; 12; 0; 5; 14; 9];
   [10; 0; 9; 14; 6; 3; 15; 5; 1; 13; 12; 7; 11; 4; 2; 8];
   [13; 7; 0; 9; 3; 4; 6; 10; 2; 8; 5; 14; 12; 11; 15; 1];
   [13; 6; 4; 9; 8; 15; 3; 0; 11; 1; 2; 12; 5; 10; 14; 7];
   [1; 10; 13; 0; 6; 9; 8; 7; 4; 15; 14; 3; 11; 5; 2; 12];
   [7; 13; 14; 3; 0; 6; 9; 10; 1; 2; 8; 5; 11; 12; 4; 15];
   [13; 8; 11; 5; 6; 15; 0; 3; 4; 7; 2; 12; 1; 10; 14; 9];
   [10; 6; 9; 0; 12; 11; 7; 13; 15; 1; 3; 14; 5; 2; 8; 4];
   [3; 15; 0; 6; 10; 1; 13; 8; 9; 4; 5; 11; 12; 7; 2; 14];
   [2; 12; 4; 1; 7; 10; 11; 6; 8; 5; 3; 15; 13; 0; 14; 9];
   [14; 11; 2; 12; 4; 7; 13; 1; 5; 0; 15; 10; 3; 9; 8; 6];
   [4; 2; 1; 11; 10; 13; 7; 8; 15; 9; 12; 5; 6; 3; 0; 14];
   [11; 8; 12; 7; 1; 14; 2; 13; 6; 15; 0; 9; 10; 4; 5; 3];
   [12; 1; 10; 15; 9; 2; 6; 8; 0; 13; 3; 4; 14; 7; 5; 11];
   [10; 15; 4; 2; 7; 12; 9; 5; 6; 1; 13; 14; 0; 11; 3; 8];
   [9; 14; 15; 5; 2; 8; 12; 3; 7; 0; 4; 10; 1; 13; 11; 6];
   [4; 3; 2; 12; 9; 5; 15; 10; 11; 14; 1; 7; 6; 0; 8; 13];
   [4; 11; 2; 14; 15; 0; 8; 13; 3; 12; 9; 7; 5; 10; 6; 1];
   [13; 0; 11; 7; 4; 9; 1; 10; 14; 3; 5; 12; 2; 15; 8; 6];
   [1; 4; 11; 13; 12; 3; 7; 14; 10; 15; 6; 8; 0; 5; 9; 2];
   [6; 11; 13; 8; 1; 4; 10; 7; 9; 5; 0; 15; 14; 2; 3; 12];
   [13; 2; 8; 4; 6; 15; 11; 1; 10; 9; 3; 14; 5; 0; 12; 7];
   [1; 15; 13; 8; 10; 3; 7; 4; 12; 5; 6; 11; 0; 14; 9; 2];
   [7; 11; 4; 1; 9; 12; 14; 2; 0; 6; 10; 13; 15; 3; 5; 8];
   [2; 1; 14; 7; 4; 10; 8; 13; 15; 12; 9; 0; 3; 5; 6; 11]].
(** DES_PC1_l, DES_Const.h 104-107. *)
Definition DES_PC1_l : list N :=
  [57; 49; 41; 33; 25; 17; 9; 1; 58; 50; 42; 34; 26; 18; 10; 2;
   59; 51; 43; 35; 27; 19; 11; 3; 60; 52; 44; 36].
(** DES_PC1_r, DES_Const.h 109-112. *)
Definition DES_PC1_r : list N :=
  [63; 55; 47; 39; 31; 23; 15; 7; 62; 54; 46; 38; 30; 22; 14; 6;
   61; 53; 45; 37; 29; 21; 13; 5; 28; 20; 12; 4].
(** DES_rot, DES_Const.h 114-114. *)
Definition DES_rot : list N :=
  [1; 1; 2; 2; 2; 2; 2; 2; 1; 2; 2; 2; 2; 2; 2; 1].
(** DES_PC2, DES_Const.h 116-123. *)
Definition DES_PC2 : list N :=
  [14; 17; 11; 24; 1; 5; 3; 28; 15; 6; 21; 10; 23; 19; 12; 4;
   26; 8; 16; 7; 27; 20; 13; 2; 41; 52; 31; 37; 47; 55; 30; 40;
   51; 45; 33; 48; 44; 49; 39; 56; 34; 53; 46; 42; 50; 36; 29; 32].
(** q_tab, Twofish_Const.h 6-42. *)
Definition Twofish_q_tab : list (list N) :=
  [[0xa9; 0x67; 0xb3; 0xe8; 0x04; 0xfd; 0xa3; 0x76; 0x9a; 0x92; 0x80; 0x78; 0xe4; 0xdd; 0xd1; 0x38;
    0x0d; 0xc6; 0x35; 0x98; 0x18; 0xf7; 0xec; 0x6c; 0x43; 0x75; 0x37; 0x26; 0xfa; 0x13; 0x94; 0x48;
    0xf2; 0xd0; 0x8b; 0x30; 0x84; 0x54; 0xdf; 0x23; 0x19; 0x5b; 0x3d; 0x59; 0xf3; 0xae; 0xa2; 0x82;
    0x63; 0x01; 0x83; 0x2e; 0xd9; 0x51; 0x9b; 0x7c; 0xa6; 0xeb; 0xa5; 0xbe; 0x16; 0x0c; 0xe3; 0x61;
    0xc0; 0x8c; 0x3a; 0xf5; 0x73; 0x2c; 0x25; 0x0b; 0xbb; 0x4e; 0x89; 0x6b; 0x53; 0x6a; 0xb4; 0xf1;
    0xe1; 0xe6; 0xbd; 0x45; 0xe2; 0xf4; 0xb6; 0x66; 0xcc; 0x95; 0x03; 0x56; 0xd4; 0x1c; 0x1e; 0xd7;
    0xfb; 0xc3; 0x8e; 0xb5; 0xe9; 0xcf; 0xbf; 0xba; 0xea; 0x77; 0x39; 0xaf; 0x33; 0xc9; 0x62; 0x71;
    0x81; 0x79; 0x09; 0xad; 0x24; 0xcd; 0xf9; 0xd8; 0xe5; 0xc5; 0xb9; 0x4d; 0x44; 0x08; 0x86; 0xe7;
    0xa1; 0x1d; 0xaa; 0xed; 0x06; 0x70; 0xb2; 0xd2; 0x41; 0x7b; 0xa0; 0x11; 0x31; 0xc2; 0x27; 0x90;
    0x20; 0xf6; 0x60; 0xff; 0x96; 0x5c; 0xb1; 0xab; 0x9e; 0x9c; 0x52; 0x1b; 0x5f; 0x93; 0x0a; 0xef;
    0x91; 0x85; 0x49; 0xee; 0x2d; 0x4f; 0x8f; 0x3b; 0x47; 0x87; 0x6d; 0x46; 0xd6; 0x3e; 0x69; 0x64;
    0x2a; 0xce; 0xcb; 0x2f; 0xfc; 0x97; 0x05; 0x7a; 0xac; 0x7f; 0xd5; 0x1a; 0x4b; 0x0e; 0xa7; 0x5a;
    0x28; 0x14; 0x3f; 0x29; 0x88; 0x3c; 0x4c; 0x02; 0xb8; 0xda; 0xb0; 0x17; 0x55; 0x1f; 0x8a; 0x7d;
    0x57; 0xc7; 0x8d; 0x74; 0xb7; 0xc4; 0x9f; 0x72; 0x7e; 0x15; 0x22; 0x12; 0x58; 0x07; 0x99; 0x34;
    0x6e; 0x50; 0xde; 0x68; 0x65; 0xbc; 0xdb; 0xf8; 0xc8; 0xa8; 0x2b; 0x40; 0xdc; 0xfe; 0x32; 0xa4;
    0xca; 0x10; 0x21; 0xf0; 0xd3; 0x5d; 0x0f; 0x00; 0x6f; 0x9d; 0x36; 0x42; 0x4a; 0x5e; 0xc1; 0xe0];
   [0x75; 0xf3; 0xc6; 0xf4; 0xdb; 0x7b; 0xfb; 0xc8; 0x4a; 0xd3; 0xe6; 0x6b; 0x45; 0x7d; 0xe8; 0x4b;
    0xd6; 0x32; 0xd8; 0xfd; 0x37; 0x71; 0xf1; 0xe1; 0x30; 0x0f; 0xf8; 0x1b; 0x87; 0xfa; 0x06; 0x3f;
    0x5e; 0xba; 0xae; 0x5b; 0x8a; 0x00; 0xbc; 0x9d; 0x6d; 0xc1; 0xb1; 0x0e; 0x80; 0x5d; 0xd2; 0xd5;
    0xa0; 0x84; 0x07; 0x14; 0xb5; 0x90; 0x2c; 0xa3; 0xb2; 0x73; 0x4c; 0x54; 0x92; 0x74; 0x36; 0x51;
    0x38; 0xb0; 0xbd; 0x5a; 0xfc; 0x60; 0x62; 0x96; 0x6c; 0x42; 0xf7; 0x10; 0x7c; 0x28; 0x27; 0x8c;
    0x13; 0x95; 0x9c; 0xc7; 0x24; 0x46; 0x3b; 0x70; 0xca; 0xe3; 0x85; 0xcb; 0x11; 0xd0; 0x93; 0xb8;
    0xa6; 0x83; 0x20; 0xff; 0x9f; 0x77; 0xc3; 0xcc; 0x03; 0x6f; 0x08; 0xbf; 0x40; 0xe7; 0x2b; 0xe2;
    0x79; 0x0c; 0xaa; 0x82; 0x41; 0x3a; 0xea; 0xb9; 0xe4; 0x9a; 0xa4; 0x97; 0x7e; 0xda; 0x7a; 0x17;
    0x66; 0x94; 0xa1; 0x1d; 0x3d; 0xf0; 0xde; 0xb3; 0x0b; 0x72; 0xa7; 0x1c; 0xef; 0xd1; 0x53; 0x3e;
    0x8f; 0x33; 0x26; 0x5f; 0xec; 0x76; 0x2a; 0x49; 0x81; 0x88; 0xee; 0x21; 0xc4; 0x1a; 0xeb; 0xd9;
    0xc5; 0x39; 0x99; 0xcd; 0xad; 0x31; 0x8b; 0x01; 0x18; 0x23; 0xdd; 0x1f; 0x4e; 0x2d; 0xf9; 0x48;
    0x4f; 0xf2; 0x65; 0x8e; 0x78; 0x5c; 0x58; 0x19; 0x8d; 0xe5; 0x98; 0x57; 0x67; 0x7f; 0x05; 0x64;
    0xaf; 0x63; 0xb6; 0xfe; 0xf5; 0xb7; 0x3c; 0xa5; 0xce; 0xe9; 0x68; 0x44; 0xe0; 0x4d; 0x43; 0x69;
    0x29; 0x2e; 0xac; 0x15; 0x59; 0xa8; 0x0a; 0x9e; 0x6e; 0x47; 0xdf; 0x34; 0x35; 0x6a; 0xcf; 0xdc;
    0x22; 0xc9; 0xc0; 0x9b; 0x89; 0xd4; 0xed; 0xab; 0x12; 0xa2; 0x0d; 0x52; 0xbb; 0x02; 0x2f; 0xa9;
    0xd7; 0x61; 0x1e; 0xb4; 0x50; 0x04; 0xf6; 0xc2; 0x16; 0x25; 0x86; 0x56; 0x55; 0x09; 0xbe; 0x91]].
(** m_tab, Twofish_Const.h 44-114. *)
Definition Twofish_m_tab : list (list N) :=
  [[0xbcbc3275; 0xecec21f3; 0x202043c6; 0xb3b3c9f4; 0xdada03db; 0x02028b7b; 0xe2e22bfb; 0x9e9efac8;
    0xc9c9ec4a; 0xd4d409d3; 0x18186be6; 0x1e1e9f6b; 0x98980e45; 0xb2b2387d; 0xa6a6d2e8; 0x2626b74b;
    0x3c3c57d6; 0x93938a32; 0x8282eed8; 0x525298fd; 0x7b7bd437; 0xbbbb3771; 0x5b5b97f1; 0x474783e1;
    0x24243c30; 0x5151e20f; 0xbabac6f8; 0x4a4af31b; 0xbfbf4887; 0x0d0d70fa; 0xb0b0b306; 0x7575de3f;
    0xd2d2fd5e; 0x7d7d20ba; 0x666631ae; 0x3a3aa35b; 0x59591c8a; 0x00000000; 0xcdcd93bc; 0x1a1ae09d;
    0xaeae2c6d; 0x7f7fabc1; 0x2b2bc7b1; 0xbebeb90e; 0xe0e0a080; 0x8a8a105d; 0x3b3b52d2; 0x6464bad5;
    0xd8d888a0; 0xe7e7a584; 0x5f5fe807; 0x1b1b1114; 0x2c2cc2b5; 0xfcfcb490; 0x3131272c; 0x808065a3;
    0x73732ab2; 0x0c0c8173; 0x79795f4c; 0x6b6b4154; 0x4b4b0292; 0x53536974; 0x94948f36; 0x83831f51;
    0x2a2a3638; 0xc4c49cb0; 0x2222c8bd; 0xd5d5f85a; 0xbdbdc3fc; 0x48487860; 0xffffce62; 0x4c4c0796;
    0x4141776c; 0xc7c7e642; 0xebeb24f7; 0x1c1c1410; 0x5d5d637c; 0x36362228; 0x6767c027; 0xe9e9af8c;
    0x4444f913; 0x1414ea95; 0xf5f5bb9c; 0xcfcf18c7; 0x3f3f2d24; 0xc0c0e346; 0x7272db3b; 0x54546c70;
    0x29294cca; 0xf0f035e3; 0x0808fe85; 0xc6c617cb; 0xf3f34f11; 0x8c8ce4d0; 0xa4a45993; 0xcaca96b8;
    0x68683ba6; 0xb8b84d83; 0x38382820; 0xe5e52eff; 0xadad569f; 0x0b0b8477; 0xc8c81dc3; 0x9999ffcc;
    0x5858ed03; 0x19199a6f; 0x0e0e0a08; 0x95957ebf; 0x70705040; 0xf7f730e7; 0x6e6ecf2b; 0x1f1f6ee2;
    0xb5b53d79; 0x09090f0c; 0x616134aa; 0x57571682; 0x9f9f0b41; 0x9d9d803a; 0x111164ea; 0x2525cdb9;
    0xafafdde4; 0x4545089a; 0xdfdf8da4; 0xa3a35c97; 0xeaead57e; 0x353558da; 0xededd07a; 0x4343fc17;
    0xf8f8cb66; 0xfbfbb194; 0x3737d3a1; 0xfafa401d; 0xc2c2683d; 0xb4b4ccf0; 0x32325dde; 0x9c9c71b3;
    0x5656e70b; 0xe3e3da72; 0x878760a7; 0x15151b1c; 0xf9f93aef; 0x6363bfd1; 0x3434a953; 0x9a9a853e;
    0xb1b1428f; 0x7c7cd133; 0x88889b26; 0x3d3da65f; 0xa1a1d7ec; 0xe4e4df76; 0x8181942a; 0x91910149;
    0x0f0ffb81; 0xeeeeaa88; 0x161661ee; 0xd7d77321; 0x9797f5c4; 0xa5a5a81a; 0xfefe3feb; 0x6d6db5d9;
    0x7878aec5; 0xc5c56d39; 0x1d1de599; 0x7676a4cd; 0x3e3edcad; 0xcbcb6731; 0xb6b6478b; 0xefef5b01;
    0x12121e18; 0x6060c523; 0x6a6ab0dd; 0x4d4df61f; 0xcecee94e; 0xdede7c2d; 0x55559df9; 0x7e7e5a48;
    0x2121b24f; 0x03037af2; 0xa0a02665; 0x5e5e198e; 0x5a5a6678; 0x65654b5c; 0x62624e58; 0xfdfd4519;
    0x0606f48d; 0x404086e5; 0xf2f2be98; 0x3333ac57; 0x17179067; 0x05058e7f; 0xe8e85e05; 0x4f4f7d64;
    0x89896aaf; 0x10109563; 0x74742fb6; 0x0a0a75fe; 0x5c5c92f5; 0x9b9b74b7; 0x2d2d333c; 0x3030d6a5;
    0x2e2e49ce; 0x494989e9; 0x46467268; 0x77775544; 0xa8a8d8e0; 0x9696044d; 0x2828bd43; 0xa9a92969;
    0xd9d97929; 0x8686912e; 0xd1d187ac; 0xf4f44a15; 0x8d8d1559; 0xd6d682a8; 0xb9b9bc0a; 0x42420d9e;
    0xf6f6c16e; 0x2f2fb847; 0xdddd06df; 0x23233934; 0xcccc6235; 0xf1f1c46a; 0xc1c112cf; 0x8585ebdc;
    0x8f8f9e22; 0x7171a1c9; 0x9090f0c0; 0xaaaa539b; 0x0101f189; 0x8b8be1d4; 0x4e4e8ced; 0x8e8e6fab;
    0xababa212; 0x6f6f3ea2; 0xe6e6540d; 0xdbdbf252; 0x92927bbb; 0xb7b7b602; 0x6969ca2f; 0x3939d9a9;
    0xd3d30cd7; 0xa7a72361; 0xa2a2ad1e; 0xc3c399b4; 0x6c6c4450; 0x07070504; 0x04047ff6; 0x272746c2;
    0xacaca716; 0xd0d07625; 0x50501386; 0xdcdcf756; 0x84841a55; 0xe1e15109; 0x7a7a25be; 0x1313ef91];
   [0xa9d93939; 0x67901717; 0xb3719c9c; 0xe8d2a6a6; 0x04050707; 0xfd985252; 0xa3658080; 0x76dfe4e4;
    0x9a084545; 0x92024b4b; 0x80a0e0e0; 0x78665a5a; 0xe4ddafaf; 0xddb06a6a; 0xd1bf6363; 0x38362a2a;
    0x0d54e6e6; 0xc6432020; 0x3562cccc; 0x98bef2f2; 0x181e1212; 0xf724ebeb; 0xecd7a1a1; 0x6c774141;
    0x43bd2828; 0x7532bcbc; 0x37d47b7b; 0x269b8888; 0xfa700d0d; 0x13f94444; 0x94b1fbfb; 0x485a7e7e;
    0xf27a0303; 0xd0e48c8c; 0x8b47b6b6; 0x303c2424; 0x84a5e7e7; 0x54416b6b; 0xdf06dddd; 0x23c56060;
    0x1945fdfd; 0x5ba33a3a; 0x3d68c2c2; 0x59158d8d; 0xf321ecec; 0xae316666; 0xa23e6f6f; 0x82165757;
    0x63951010; 0x015befef; 0x834db8b8; 0x2e918686; 0xd9b56d6d; 0x511f8383; 0x9b53aaaa; 0x7c635d5d;
    0xa63b6868; 0xeb3ffefe; 0xa5d63030; 0xbe257a7a; 0x16a7acac; 0x0c0f0909; 0xe335f0f0; 0x6123a7a7;
    0xc0f09090; 0x8cafe9e9; 0x3a809d9d; 0xf5925c5c; 0x73810c0c; 0x2c273131; 0x2576d0d0; 0x0be75656;
    0xbb7b9292; 0x4ee9cece; 0x89f10101; 0x6b9f1e1e; 0x53a93434; 0x6ac4f1f1; 0xb499c3c3; 0xf1975b5b;
    0xe1834747; 0xe66b1818; 0xbdc82222; 0x450e9898; 0xe26e1f1f; 0xf4c9b3b3; 0xb62f7474; 0x66cbf8f8;
    0xccff9999; 0x95ea1414; 0x03ed5858; 0x56f7dcdc; 0xd4e18b8b; 0x1c1b1515; 0x1eada2a2; 0xd70cd3d3;
    0xfb2be2e2; 0xc31dc8c8; 0x8e195e5e; 0xb5c22c2c; 0xe9894949; 0xcf12c1c1; 0xbf7e9595; 0xba207d7d;
    0xea641111; 0x77840b0b; 0x396dc5c5; 0xaf6a8989; 0x33d17c7c; 0xc9a17171; 0x62ceffff; 0x7137bbbb;
    0x81fb0f0f; 0x793db5b5; 0x0951e1e1; 0xaddc3e3e; 0x242d3f3f; 0xcda47676; 0xf99d5555; 0xd8ee8282;
    0xe5864040; 0xc5ae7878; 0xb9cd2525; 0x4d049696; 0x44557777; 0x080a0e0e; 0x86135050; 0xe730f7f7;
    0xa1d33737; 0x1d40fafa; 0xaa346161; 0xed8c4e4e; 0x06b3b0b0; 0x706c5454; 0xb22a7373; 0xd2523b3b;
    0x410b9f9f; 0x7b8b0202; 0xa088d8d8; 0x114ff3f3; 0x3167cbcb; 0xc2462727; 0x27c06767; 0x90b4fcfc;
    0x20283838; 0xf67f0404; 0x60784848; 0xff2ee5e5; 0x96074c4c; 0x5c4b6565; 0xb1c72b2b; 0xab6f8e8e;
    0x9e0d4242; 0x9cbbf5f5; 0x52f2dbdb; 0x1bf34a4a; 0x5fa63d3d; 0x9359a4a4; 0x0abcb9b9; 0xef3af9f9;
    0x91ef1313; 0x85fe0808; 0x49019191; 0xee611616; 0x2d7cdede; 0x4fb22121; 0x8f42b1b1; 0x3bdb7272;
    0x47b82f2f; 0x8748bfbf; 0x6d2caeae; 0x46e3c0c0; 0xd6573c3c; 0x3e859a9a; 0x6929a9a9; 0x647d4f4f;
    0x2a948181; 0xce492e2e; 0xcb17c6c6; 0x2fca6969; 0xfcc3bdbd; 0x975ca3a3; 0x055ee8e8; 0x7ad0eded;
    0xac87d1d1; 0x7f8e0505; 0xd5ba6464; 0x1aa8a5a5; 0x4bb72626; 0x0eb9bebe; 0xa7608787; 0x5af8d5d5;
    0x28223636; 0x14111b1b; 0x3fde7575; 0x2979d9d9; 0x88aaeeee; 0x3c332d2d; 0x4c5f7979; 0x02b6b7b7;
    0xb896caca; 0xda583535; 0xb09cc4c4; 0x17fc4343; 0x551a8484; 0x1ff64d4d; 0x8a1c5959; 0x7d38b2b2;
    0x57ac3333; 0xc718cfcf; 0x8df40606; 0x74695353; 0xb7749b9b; 0xc4f59797; 0x9f56adad; 0x72dae3e3;
    0x7ed5eaea; 0x154af4f4; 0x229e8f8f; 0x12a2abab; 0x584e6262; 0x07e85f5f; 0x99e51d1d; 0x34392323;
    0x6ec1f6f6; 0x50446c6c; 0xde5d3232; 0x68724646; 0x6526a0a0; 0xbc93cdcd; 0xdb03dada; 0xf8c6baba;
    0xc8fa9e9e; 0xa882d6d6; 0x2bcf6e6e; 0x40507070; 0xdceb8585; 0xfe750a0a; 0x328a9393; 0xa48ddfdf;
    0xca4c2929; 0x10141c1c; 0x2173d7d7; 0xf0ccb4b4; 0xd309d4d4; 0x5d108a8a; 0x0fe25151; 0x00000000;
    0x6f9a1919; 0x9de01a1a; 0x368f9494; 0x42e6c7c7; 0x4aecc9c9; 0x5efdd2d2; 0xc1ab7f7f; 0xe0d8a8a8];
   [0xbc75bc32; 0xecf3ec21; 0x20c62043; 0xb3f4b3c9; 0xdadbda03; 0x027b028b; 0xe2fbe22b; 0x9ec89efa;
    0xc94ac9ec; 0xd4d3d409; 0x18e6186b; 0x1e6b1e9f; 0x9845980e; 0xb27db238; 0xa6e8a6d2; 0x264b26b7;
    0x3cd63c57; 0x9332938a; 0x82d882ee; 0x52fd5298; 0x7b377bd4; 0xbb71bb37; 0x5bf15b97; 0x47e14783;
    0x2430243c; 0x510f51e2; 0xbaf8bac6; 0x4a1b4af3; 0xbf87bf48; 0x0dfa0d70; 0xb006b0b3; 0x753f75de;
    0xd25ed2fd; 0x7dba7d20; 0x66ae6631; 0x3a5b3aa3; 0x598a591c; 0x00000000; 0xcdbccd93; 0x1a9d1ae0;
    0xae6dae2c; 0x7fc17fab; 0x2bb12bc7; 0xbe0ebeb9; 0xe080e0a0; 0x8a5d8a10; 0x3bd23b52; 0x64d564ba;
    0xd8a0d888; 0xe784e7a5; 0x5f075fe8; 0x1b141b11; 0x2cb52cc2; 0xfc90fcb4; 0x312c3127; 0x80a38065;
    0x73b2732a; 0x0c730c81; 0x794c795f; 0x6b546b41; 0x4b924b02; 0x53745369; 0x9436948f; 0x8351831f;
    0x2a382a36; 0xc4b0c49c; 0x22bd22c8; 0xd55ad5f8; 0xbdfcbdc3; 0x48604878; 0xff62ffce; 0x4c964c07;
    0x416c4177; 0xc742c7e6; 0xebf7eb24; 0x1c101c14; 0x5d7c5d63; 0x36283622; 0x672767c0; 0xe98ce9af;
    0x441344f9; 0x149514ea; 0xf59cf5bb; 0xcfc7cf18; 0x3f243f2d; 0xc046c0e3; 0x723b72db; 0x5470546c;
    0x29ca294c; 0xf0e3f035; 0x088508fe; 0xc6cbc617; 0xf311f34f; 0x8cd08ce4; 0xa493a459; 0xcab8ca96;
    0x68a6683b; 0xb883b84d; 0x38203828; 0xe5ffe52e; 0xad9fad56; 0x0b770b84; 0xc8c3c81d; 0x99cc99ff;
    0x580358ed; 0x196f199a; 0x0e080e0a; 0x95bf957e; 0x70407050; 0xf7e7f730; 0x6e2b6ecf; 0x1fe21f6e;
    0xb579b53d; 0x090c090f; 0x61aa6134; 0x57825716; 0x9f419f0b; 0x9d3a9d80; 0x11ea1164; 0x25b925cd;
    0xafe4afdd; 0x459a4508; 0xdfa4df8d; 0xa397a35c; 0xea7eead5; 0x35da3558; 0xed7aedd0; 0x431743fc;
    0xf866f8cb; 0xfb94fbb1; 0x37a137d3; 0xfa1dfa40; 0xc23dc268; 0xb4f0b4cc; 0x32de325d; 0x9cb39c71;
    0x560b56e7; 0xe372e3da; 0x87a78760; 0x151c151b; 0xf9eff93a; 0x63d163bf; 0x345334a9; 0x9a3e9a85;
    0xb18fb142; 0x7c337cd1; 0x8826889b; 0x3d5f3da6; 0xa1eca1d7; 0xe476e4df; 0x812a8194; 0x91499101;
    0x0f810ffb; 0xee88eeaa; 0x16ee1661; 0xd721d773; 0x97c497f5; 0xa51aa5a8; 0xfeebfe3f; 0x6dd96db5;
    0x78c578ae; 0xc539c56d; 0x1d991de5; 0x76cd76a4; 0x3ead3edc; 0xcb31cb67; 0xb68bb647; 0xef01ef5b;
    0x1218121e; 0x602360c5; 0x6add6ab0; 0x4d1f4df6; 0xce4ecee9; 0xde2dde7c; 0x55f9559d; 0x7e487e5a;
    0x214f21b2; 0x03f2037a; 0xa065a026; 0x5e8e5e19; 0x5a785a66; 0x655c654b; 0x6258624e; 0xfd19fd45;
    0x068d06f4; 0x40e54086; 0xf298f2be; 0x335733ac; 0x17671790; 0x057f058e; 0xe805e85e; 0x4f644f7d;
    0x89af896a; 0x10631095; 0x74b6742f; 0x0afe0a75; 0x5cf55c92; 0x9bb79b74; 0x2d3c2d33; 0x30a530d6;
    0x2ece2e49; 0x49e94989; 0x46684672; 0x77447755; 0xa8e0a8d8; 0x964d9604; 0x284328bd; 0xa969a929;
    0xd929d979; 0x862e8691; 0xd1acd187; 0xf415f44a; 0x8d598d15; 0xd6a8d682; 0xb90ab9bc; 0x429e420d;
    0xf66ef6c1; 0x2f472fb8; 0xdddfdd06; 0x23342339; 0xcc35cc62; 0xf16af1c4; 0xc1cfc112; 0x85dc85eb;
    0x8f228f9e; 0x71c971a1; 0x90c090f0; 0xaa9baa53; 0x018901f1; 0x8bd48be1; 0x4eed4e8c; 0x8eab8e6f;
    0xab12aba2; 0x6fa26f3e; 0xe60de654; 0xdb52dbf2; 0x92bb927b; 0xb702b7b6; 0x692f69ca; 0x39a939d9;
    0xd3d7d30c; 0xa761a723; 0xa21ea2ad; 0xc3b4c399; 0x6c506c44; 0x07040705; 0x04f6047f; 0x27c22746;
    0xac16aca7; 0xd025d076; 0x50865013; 0xdc56dcf7; 0x8455841a; 0xe109e151; 0x7abe7a25; 0x139113ef];
   [0xd939a9d9; 0x90176790; 0x719cb371; 0xd2a6e8d2; 0x05070405; 0x9852fd98; 0x6580a365; 0xdfe476df;
    0x08459a08; 0x024b9202; 0xa0e080a0; 0x665a7866; 0xddafe4dd; 0xb06addb0; 0xbf63d1bf; 0x362a3836;
    0x54e60d54; 0x4320c643; 0x62cc3562; 0xbef298be; 0x1e12181e; 0x24ebf724; 0xd7a1ecd7; 0x77416c77;
    0xbd2843bd; 0x32bc7532; 0xd47b37d4; 0x9b88269b; 0x700dfa70; 0xf94413f9; 0xb1fb94b1; 0x5a7e485a;
    0x7a03f27a; 0xe48cd0e4; 0x47b68b47; 0x3c24303c; 0xa5e784a5; 0x416b5441; 0x06dddf06; 0xc56023c5;
    0x45fd1945; 0xa33a5ba3; 0x68c23d68; 0x158d5915; 0x21ecf321; 0x3166ae31; 0x3e6fa23e; 0x16578216;
    0x95106395; 0x5bef015b; 0x4db8834d; 0x91862e91; 0xb56dd9b5; 0x1f83511f; 0x53aa9b53; 0x635d7c63;
    0x3b68a63b; 0x3ffeeb3f; 0xd630a5d6; 0x257abe25; 0xa7ac16a7; 0x0f090c0f; 0x35f0e335; 0x23a76123;
    0xf090c0f0; 0xafe98caf; 0x809d3a80; 0x925cf592; 0x810c7381; 0x27312c27; 0x76d02576; 0xe7560be7;
    0x7b92bb7b; 0xe9ce4ee9; 0xf10189f1; 0x9f1e6b9f; 0xa93453a9; 0xc4f16ac4; 0x99c3b499; 0x975bf197;
    0x8347e183; 0x6b18e66b; 0xc822bdc8; 0x0e98450e; 0x6e1fe26e; 0xc9b3f4c9; 0x2f74b62f; 0xcbf866cb;
    0xff99ccff; 0xea1495ea; 0xed5803ed; 0xf7dc56f7; 0xe18bd4e1; 0x1b151c1b; 0xada21ead; 0x0cd3d70c;
    0x2be2fb2b; 0x1dc8c31d; 0x195e8e19; 0xc22cb5c2; 0x8949e989; 0x12c1cf12; 0x7e95bf7e; 0x207dba20;
    0x6411ea64; 0x840b7784; 0x6dc5396d; 0x6a89af6a; 0xd17c33d1; 0xa171c9a1; 0xceff62ce; 0x37bb7137;
    0xfb0f81fb; 0x3db5793d; 0x51e10951; 0xdc3eaddc; 0x2d3f242d; 0xa476cda4; 0x9d55f99d; 0xee82d8ee;
    0x8640e586; 0xae78c5ae; 0xcd25b9cd; 0x04964d04; 0x55774455; 0x0a0e080a; 0x13508613; 0x30f7e730;
    0xd337a1d3; 0x40fa1d40; 0x3461aa34; 0x8c4eed8c; 0xb3b006b3; 0x6c54706c; 0x2a73b22a; 0x523bd252;
    0x0b9f410b; 0x8b027b8b; 0x88d8a088; 0x4ff3114f; 0x67cb3167; 0x4627c246; 0xc06727c0; 0xb4fc90b4;
    0x28382028; 0x7f04f67f; 0x78486078; 0x2ee5ff2e; 0x074c9607; 0x4b655c4b; 0xc72bb1c7; 0x6f8eab6f;
    0x0d429e0d; 0xbbf59cbb; 0xf2db52f2; 0xf34a1bf3; 0xa63d5fa6; 0x59a49359; 0xbcb90abc; 0x3af9ef3a;
    0xef1391ef; 0xfe0885fe; 0x01914901; 0x6116ee61; 0x7cde2d7c; 0xb2214fb2; 0x42b18f42; 0xdb723bdb;
    0xb82f47b8; 0x48bf8748; 0x2cae6d2c; 0xe3c046e3; 0x573cd657; 0x859a3e85; 0x29a96929; 0x7d4f647d;
    0x94812a94; 0x492ece49; 0x17c6cb17; 0xca692fca; 0xc3bdfcc3; 0x5ca3975c; 0x5ee8055e; 0xd0ed7ad0;
    0x87d1ac87; 0x8e057f8e; 0xba64d5ba; 0xa8a51aa8; 0xb7264bb7; 0xb9be0eb9; 0x6087a760; 0xf8d55af8;
    0x22362822; 0x111b1411; 0xde753fde; 0x79d92979; 0xaaee88aa; 0x332d3c33; 0x5f794c5f; 0xb6b702b6;
    0x96cab896; 0x5835da58; 0x9cc4b09c; 0xfc4317fc; 0x1a84551a; 0xf64d1ff6; 0x1c598a1c; 0x38b27d38;
    0xac3357ac; 0x18cfc718; 0xf4068df4; 0x69537469; 0x749bb774; 0xf597c4f5; 0x56ad9f56; 0xdae372da;
    0xd5ea7ed5; 0x4af4154a; 0x9e8f229e; 0xa2ab12a2; 0x4e62584e; 0xe85f07e8; 0xe51d99e5; 0x39233439;
    0xc1f66ec1; 0x446c5044; 0x5d32de5d; 0x72466872; 0x26a06526; 0x93cdbc93; 0x03dadb03; 0xc6baf8c6;
    0xfa9ec8fa; 0x82d6a882; 0xcf6e2bcf; 0x50704050; 0xeb85dceb; 0x750afe75; 0x8a93328a; 0x8ddfa48d;
    0x4c29ca4c; 0x141c1014; 0x73d72173; 0xccb4f0cc; 0x09d4d309; 0x108a5d10; 0xe2510fe2; 0x00000000;
    0x9a196f9a; 0xe01a9de0; 0x8f94368f; 0xe6c742e6; 0xecc94aec; 0xfdd25efd; 0xab7fc1ab; 0xd8a8e0d8]].
