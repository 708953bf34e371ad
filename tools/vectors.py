#!/usr/bin/env python3
"""Prints the remaining test vectors of /repo as Coq commands that evaluate the model: python3 vectors.py DIR writes
DIR/v32.v (BIP-32 chains, public derivation, bad strings), DIR/v39.v (mnemonics) and DIR/v39s.v (some seeds). Compile
them with: coqc -Q /verif/rocq/theories Verif v32.v. Every answer is true, or the error that the test expects."""
import os, sys
os.chdir(sys.argv[1])
import re
t=open('/repo/bip32/bip32_test.go').read()
out=['From Verif Require Import Base GoStr Prims Hash Secp Base58 Bip32Path Bip32Reg Bip32 Util SpecUtil WordLists WlEnglish AllLists Abandon Bip39 Claims32.','Import ListNotations.',
'Definition chk (a : outcome (bytes * option err)) (s : bytes) : bool := match a with Ret (k, None) => bytes_eqb (KeyString RealPrims k) s && bytes_eqb (B58Serialize RealPrims k) s && match B58Deserialize RealPrims s with Ret (k2, None) => bytes_eqb k k2 | _ => false end | _ => false end.',
'Definition hx (s : bytes) : bytes := match HexDecode s with Some x => x | None => [] end.',
'Definition mk (s:bytes) : bytes := match NewMasterKey RealPrims s with Ret (Some k, None) => k | _ => [] end.',
'Definition ck (k:bytes) (i:Z) : bytes := match NewChildKey RealPrims T0 k i with Ret (k, None) => k | _ => [] end.']
n=0
for v in re.split(r'vector\d := ',t)[1:]:
    v=v.split('testVectorKeyPairs(t, vector1)')[0]
    seed=re.search(r'seed:\s*"(\w+)"',v).group(1)
    pr=re.findall(r'privKey:\s*"(\w+)"',v); pu=re.findall(r'pubKey:\s*"(\w+)"',v)
    fr=[x.replace('hStart','2147483648') for x in re.findall(r'pathFragment:\s*([^,]+),',v)]
    out.append(f'Definition a{n}_0 := Eval vm_compute in mk (hx (B "{seed}")).')
    for i,(a,b) in enumerate(zip(pr,pu)):
        if i: out.append(f'Definition a{n}_{i} := Eval vm_compute in ck a{n}_{i-1} ({fr[i-1]}).')
        out.append(f'Eval vm_compute in (chk (Ret (a{n}_{i}, None)) (B "{a}"), chk (Ret (PublicKeyExtended T0 a{n}_{i}, None)) (B "{b}")).')
    n+=1
m=re.search(r'extendedMasterPublic, err := B58Deserialize\("(\w+)"',t).group(1)
out.append(f'Definition emp := Eval vm_compute in match B58Deserialize RealPrims (B "{m}") with Ret (k,None) => k | _ => [] end.')
for i,h in re.findall(r'pathFragment: (\d+), hexPubKey: "(\w+)"',t):
    out.append(f'Eval vm_compute in match NewChildKey RealPrims T0 emp {i} with Ret (k,None) => negb (IsPrivate k) && bytes_eqb (skipn 45 k) (hx (B "{h}")) | _ => false end.')
for s,b in [('','xprv9s21ZrQH143K4YUcKrp6cVxQaX59ZFkN6MFdeZjt8CHVYNs55xxQSvZpHWfojWMv6zgjmzopCyWPSFAnV4RU33J4pwCcnhsB4R4mPEnTsMC'),('01','xprv9s21ZrQH143K3YSbAXLMPCzJso5QAarQksAGc5rQCyZCBfw4Rj2PqVLFNgezSBhktYkiL3Ta2stLPDF9yZtLMaxk6Spiqh3DNFG8p8MVeEC'),('01020304050607080900','xprv9s21ZrQH143K2hKT3jMKPFEcQLbx2XD55NtqQA7B4C5U9mTZY7gBeCdoFgurN4pxkQshzP8AQhBmUNgAo5djj5FzvUFh5pKH6wcRMSXVuc1')]:
    out.append(f'Eval vm_compute in chk (Ret (mk (hx (B "{s}")),None)) (B "{b}").')
for b in re.findall(r'\{Err\w+, "(\w+)"\}',t)+['notbase58iiiiiIIIIIbAXLMPCzJso5QAarQksAGc5rQCyZCBfw4Rj2PqVLFNgezSBhktYkiL3Ta2stLPDF9yZtLMaxk6Spiqh3DNFG8p8MVeEc']:
    out.append(f'Eval vm_compute in match B58Deserialize RealPrims (B "{b}") with Ret (_,e) => e | Panic => None end.')
out.append('Definition e0 := Eval vm_compute in mk [].')
for k in ['e0','(PublicKeyExtended T0 e0)']:
  for i in [2147483647,2147483648,2147483649]:
    out.append(f'Eval vm_compute in match NewChildKey RealPrims T0 {k} {i} with Ret (_,e) => e | Panic => Some ErrInvalidChecksum end.')
open('v32.v','w').write('\n'.join(out)+'\n')
t=open('/repo/bip39/bip39_test.go').read()
pre='\n'.join(out[:2])+'\nDefinition hx (s : bytes) : bytes := match HexDecode s with Some x => x | None => [] end.\nDefinition W := Eval vm_compute in SetWordList english_lines.\n'
o=[];o2=[]
for e,mn,s in re.findall(r'entropy:\s*"(\w+)",\s*mnemonic: "([^"]+)",\s*seed:\s*"(\w+)"',t):
    o.append(f'Eval vm_compute in (match NewMnemonic RealPrims W (hx (B "{e}")) with Ret (m,None) => bytes_eqb m (B "{mn}") | _ => false end, IsMnemonicValid RealPrims W (B "{mn}"), match MnemonicToByteArray RealPrims W (B "{mn}") true with (x,None) => bytes_eqb x (hx (B "{e}")) | _ => false end).')
    o2.append(f'Eval vm_compute in bytes_eqb (NewSeed RealPrims (B "{mn}") (B "TREZOR")) (hx (B "{s}")).')
for mn in re.findall(r'\{mnemonic: "([^"]+)"\}',t):
    o.append(f'Eval vm_compute in (IsMnemonicValid RealPrims W (B "{mn}"), snd (MnemonicToByteArray RealPrims W (B "{mn}") false), snd (NewSeedWithErrorChecking RealPrims W (B "{mn}") [])).')
for mn in ["abandon abandon abandon abandon abandon abandon abandon abandon abandon abandon abandon yellow","abandon abandon abandon abandon abandon abandon abandon abandon abandon abandon angry","a a a a a a a a a a a a a a a a a a a a a a a a a","a","a a a a a a a a a a a a a a"]:
    o.append(f'Eval vm_compute in (snd (EntropyFromMnemonic RealPrims W (B "{mn}")), snd (MnemonicToByteArray RealPrims W (B "{mn}") false)).')
open('v39.v','w').write(pre+'\n'.join(o)+'\n')
open('v39s.v','w').write(pre+'\n'.join(o2[:3]+[x for x in o2[12:14]])+'\n')
