import zipfile,xml.etree.ElementTree as ET
NS={'t':'urn:oasis:names:tc:opendocument:xmlns:table:1.0','o':'urn:oasis:names:tc:opendocument:xmlns:office:1.0','x':'urn:oasis:names:tc:opendocument:xmlns:text:1.0'}
def q(p,n): return '{%s}%s'%(NS[p],n)
def sheet(f):
    r=ET.fromstring(zipfile.ZipFile(f).read('content.xml'))
    tabs=r.findall('.//t:table',NS)
    out=[]
    for tr in tabs[0].iter(q('t','table-row')):
        rep=int(tr.get(q('t','number-rows-repeated'),'1'))
        row=[]
        for c in tr:
            if c.tag not in(q('t','table-cell'),q('t','covered-table-cell')): continue
            n=int(c.get(q('t','number-columns-repeated'),'1'))
            ty=c.get(q('o','value-type'))
            txt="\n".join("".join(p.itertext()) for p in c.findall('x:p',NS))
            if ty in('float','percentage'): v=('num',c.get(q('o','value')),txt)
            elif ty is None: v=None
            else: v=('str',txt,ty)
            row+= [v]*min(n,30)
        while row and row[-1] is None: row.pop()
        if rep<50: out+= [row]*rep
        elif row: out+=[row]*rep
    return out,len(tabs)
if __name__=='__main__':
    o,n=sheet('/repo/data/network_paths.ods')
    print(n,len(o))
    for r in o[:12]: print(r)
