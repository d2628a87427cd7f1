P=21888242871839275222246405745257275088548364400416034343698204186575808495617
def grain(t=3,RF=8,RP=57,n=254):
    bits=[]
    for v,w in ((1,2),(0,4),(n,12),(t,12),(RF,10),(RP,10),((1<<30)-1,30)):
        bits+=[int(c) for c in format(v,'0%db'%w)]
    def step():
        b=bits[62]^bits[51]^bits[38]^bits[23]^bits[13]^bits[0]
        bits.pop(0); bits.append(b); return b
    for _ in range(160): step()
    def bit():
        while True:
            a=step(); b=step()
            if a: return b
    def num():
        v=0
        for _ in range(n): v=v*2+bit()
        return v
    rc=[]
    while len(rc)<(RF+RP)*t:
        v=num()
        if v<P: rc.append(v)
    while True:
        l=[num()%P for _ in range(2*t)]
        if len(set(l))==2*t: break
    M=[[pow(l[i]+l[t+j],P-2,P) for j in range(t)] for i in range(t)]
    return rc,M
RC,M=grain()
def perm(s):
    k=0
    for r in range(65):
        s=[(x+RC[k+i])%P for i,x in enumerate(s)]; k+=3
        if r<4 or r>=61: s=[pow(x,5,P) for x in s]
        else: s=[pow(s[0],5,P)]+s[1:]
        s=[sum(M[i][j]*s[j] for j in range(3))%P for i in range(3)]
    return s
def H(a,b,d): return perm([d%P,a%P,b%P])[0]
if __name__=='__main__':
    print(hex(RC[0]),hex(M[0][0]),hex(H(1,2,0)))
