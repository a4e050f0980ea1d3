*.vo
*.vok
*.vos
*.glob
*.aux
.lia.cache
.nia.cache
Makefile.conf
.Makefile.d
