*.vo
*.vok
*.vos
*.glob
*.aux
.*.aux
Makefile
Makefile.conf
.Makefile.d
Makefile.d
.lia.cache
.nra.cache
.nia.cache
